From Verif Require Import Base BaseLemmas Slot Image Manifest KeyFile StatusFile EnvKey EnvKeyProofs ShellWords ShellOut ShellOutSpec ShellOutProofs ShellOutInfo ShellOutStatus.

Lemma decz_eq : forall z, decz z = ((if (z <? 0)%Z then "-" else "") ++ print_num 10 (Z.to_N (Z.abs z)))%string.
Proof.
  intro z. unfold decz. destruct (Z.ltb_spec z 0).
  - rewrite Z.abs_neq by lia. reflexivity.
  - rewrite Z.abs_eq by lia. reflexivity.
Qed.

(** [c_status]: the first status variables *)
Lemma c64_status_ok : forall (T : Type) (i : iso T) det (c : cstatus T), (forall s, In s (c_slots c) -> v_state s <> ST_UNKNOWN) ->
  exists out, status_shell i det c = Ok out /\
  shown out "" [("RAUC_SYSTEM_COMPATIBLE", Some (or_null (c_compatible c)));
                ("RAUC_SYSTEM_VARIANT", Some (or_null (c_variant c)));
                ("RAUC_SYSTEM_VERSION", Some (or_null (c_version c)));
                ("RAUC_SYSTEM_BOOTED_BOOTNAME", Some (or_null (c_bootslot c)));
                ("RAUC_BOOT_PRIMARY", Some (or_null (c_primary c)));
                ("RAUC_SYSTEM_SLOTS", Some (words (map v_name (c_slots c))));
                ("RAUC_SLOTS", Some (counted (List.length (c_slots c))));
                ("RAUC_REPOS", Some (counted (List.length (c_repos c))))] /\
  (forall k s, nth_error (c_slots c) k = Some s -> shown out (num (S k)) (slot_vars s) /\
     shown out (num (S k)) (combine detail_names
       (match (if det then v_status s else None) with Some r => map Some (detail_values i r) | None => repeat None (List.length detail_names) end))) /\
  (forall k, k = 0 \/ List.length (c_slots c) < k ->
     Forall (fun p => sets out (p ++ num k) None)
       (["RAUC_SLOT_STATE_"; "RAUC_SLOT_CLASS_"; "RAUC_SLOT_DEVICE_"; "RAUC_SLOT_TYPE_"; "RAUC_SLOT_BOOTNAME_"; "RAUC_SLOT_PARENT_";
         "RAUC_SLOT_MOUNTPOINT_"; "RAUC_SLOT_BOOT_STATUS_"] ++ detail_names)) /\
  (forall k x, nth_error (c_repos c) k = Some x -> repo_shown out (num (S k)) x).
Proof.
  intros T i det c K. destruct (status_text T i det c K) as (out & E & Ev). exists out. split; [exact E |].
  assert (S1 : forall n v, value_of n (map unw (wstatus i det c)) = v -> sets out n v) by (intros n v H; eexists; split; [exact Ev | exact H]).
  change num with dec.
  assert (HV : forall q v, wok q = true -> second q <> "SLOT" -> second q <> "REPO" -> second q <> "REPOS" -> wlast q (wstat_head c) = v -> sets out (wname q) v).
  { intros q v W N1 N2 N3 H. apply S1. rewrite head_val by assumption. exact H. }
  split; [| split; [| split]].
  - repeat apply Forall_cons; [.. | apply Forall_nil]; cbn [fst snd]; rewrite app_nil_s'.
    + apply (HV ["RAUC"; "SYSTEM"; "COMPATIBLE"]); [reflexivity | discriminate | discriminate | discriminate | reflexivity].
    + apply (HV ["RAUC"; "SYSTEM"; "VARIANT"]); [reflexivity | discriminate | discriminate | discriminate | reflexivity].
    + apply (HV ["RAUC"; "SYSTEM"; "VERSION"]); [reflexivity | discriminate | discriminate | discriminate | reflexivity].
    + apply (HV ["RAUC"; "SYSTEM"; "BOOTED"; "BOOTNAME"]); [reflexivity | discriminate | discriminate | discriminate | reflexivity].
    + apply (HV ["RAUC"; "BOOT"; "PRIMARY"]); [reflexivity | discriminate | discriminate | discriminate | reflexivity].
    + apply (HV ["RAUC"; "SYSTEM"; "SLOTS"]); [reflexivity | discriminate | discriminate | discriminate | reflexivity].
    + apply (HV ["RAUC"; "SLOTS"]); [reflexivity | discriminate | discriminate | discriminate | reflexivity].
    + apply S1. change "RAUC_REPOS" with (wname ["RAUC"; "REPOS"]). rewrite status_find by reflexivity. unfold wstatus. rewrite !wlast_app. reflexivity.
  - intros k s N.
    assert (SV : forall q v, stem_ok q = true -> 2 <= List.length q -> second q = "SLOT" -> wlast q (all_table i det s) = v -> sets out (wname (q ++ [dec (S k)])) v).
    { intros q v W L2 X H. apply S1. rewrite slot_val by assumption. change (S k <? 1)%nat with false. cbv iota. replace (S k - 1) with k by lia. rewrite N. exact H. }
    split.
    + assert (SV' : forall q v, stem_ok q = true -> 2 <= List.length q -> second q = "SLOT" ->
         wlast q (match (if det then v_status s else None) with None => [] | Some r => rstat_table i r end) = None -> wlast q (slot_table s) = v -> sets out (wname (q ++ [dec (S k)])) v).
      { intros q v W L2 X H1 H2. apply SV; try assumption. unfold all_table. rewrite wlast_app, H1. exact H2. }
      assert (D : forall q, (forall r : rstat T, wlast q (rstat_table i r) = None) -> wlast q (match (if det then v_status s else None) with None => [] | Some r => rstat_table i r end) = None).
      { intros q H. destruct (if det then v_status s else None) as [r |]; [apply H | reflexivity]. }
      unfold slot_vars. repeat apply Forall_cons; [.. | apply Forall_nil]; cbn [fst snd].
      * apply (SV' ["RAUC"; "SLOT"; "STATE"]); [reflexivity | cbn; lia | reflexivity | apply D; intro r; reflexivity | reflexivity].
      * apply (SV' ["RAUC"; "SLOT"; "CLASS"]); [reflexivity | cbn; lia | reflexivity | apply D; intro r; reflexivity | reflexivity].
      * apply (SV' ["RAUC"; "SLOT"; "DEVICE"]); [reflexivity | cbn; lia | reflexivity | apply D; intro r; reflexivity | reflexivity].
      * apply (SV' ["RAUC"; "SLOT"; "TYPE"]); [reflexivity | cbn; lia | reflexivity | apply D; intro r; reflexivity | reflexivity].
      * apply (SV' ["RAUC"; "SLOT"; "BOOTNAME"]); [reflexivity | cbn; lia | reflexivity | apply D; intro r; reflexivity | reflexivity].
      * apply (SV' ["RAUC"; "SLOT"; "PARENT"]); [reflexivity | cbn; lia | reflexivity | apply D; intro r; reflexivity | reflexivity].
      * apply (SV' ["RAUC"; "SLOT"; "MOUNTPOINT"]); [reflexivity | cbn; lia | reflexivity | apply D; intro r; reflexivity | reflexivity].
      * apply (SV' ["RAUC"; "SLOT"; "BOOT"; "STATUS"]); [reflexivity | cbn; lia | reflexivity | apply D; intro r; reflexivity |].
        cbn. destruct (v_bootname s); [destruct (v_boot s); reflexivity | reflexivity].
    + unfold shown. unfold all_table in SV. destruct (if det then v_status s else None) as [r |].
      * unfold detail_values, detail_names. cbn [map combine]. rewrite <- decz_eq. repeat apply Forall_cons; [.. | apply Forall_nil]; cbn [fst snd].
        -- apply (SV ["RAUC"; "SLOT"; "STATUS"; "BUNDLE"; "COMPATIBLE"]); [reflexivity | cbn; lia | reflexivity | reflexivity].
        -- apply (SV ["RAUC"; "SLOT"; "STATUS"; "BUNDLE"; "VERSION"]); [reflexivity | cbn; lia | reflexivity | reflexivity].
        -- apply (SV ["RAUC"; "SLOT"; "STATUS"; "BUNDLE"; "DESCRIPTION"]); [reflexivity | cbn; lia | reflexivity | reflexivity].
        -- apply (SV ["RAUC"; "SLOT"; "STATUS"; "BUNDLE"; "BUILD"]); [reflexivity | cbn; lia | reflexivity | reflexivity].
        -- apply (SV ["RAUC"; "SLOT"; "STATUS"; "BUNDLE"; "HASH"]); [reflexivity | cbn; lia | reflexivity | reflexivity].
        -- apply (SV ["RAUC"; "SLOT"; "STATUS"; "CHECKSUM"; "SHA256"]); [reflexivity | cbn; lia | reflexivity | reflexivity].
        -- apply (SV ["RAUC"; "SLOT"; "STATUS"; "CHECKSUM"; "SIZE"]); [reflexivity | cbn; lia | reflexivity | reflexivity].
        -- apply (SV ["RAUC"; "SLOT"; "STATUS"; "INSTALLED"; "TIMESTAMP"]); [reflexivity | cbn; lia | reflexivity | reflexivity].
        -- apply (SV ["RAUC"; "SLOT"; "STATUS"; "INSTALLED"; "COUNT"]); [reflexivity | cbn; lia | reflexivity | reflexivity].
        -- apply (SV ["RAUC"; "SLOT"; "STATUS"; "ACTIVATED"; "TIMESTAMP"]); [reflexivity | cbn; lia | reflexivity | reflexivity].
        -- apply (SV ["RAUC"; "SLOT"; "STATUS"; "ACTIVATED"; "COUNT"]); [reflexivity | cbn; lia | reflexivity | reflexivity].
        -- apply (SV ["RAUC"; "SLOT"; "STATUS"; "STATUS"]); [reflexivity | cbn; lia | reflexivity | reflexivity].
      * unfold detail_names. cbn [List.length repeat combine]. repeat apply Forall_cons; [.. | apply Forall_nil]; cbn [fst snd].
        -- apply (SV ["RAUC"; "SLOT"; "STATUS"; "BUNDLE"; "COMPATIBLE"]); [reflexivity | cbn; lia | reflexivity | reflexivity].
        -- apply (SV ["RAUC"; "SLOT"; "STATUS"; "BUNDLE"; "VERSION"]); [reflexivity | cbn; lia | reflexivity | reflexivity].
        -- apply (SV ["RAUC"; "SLOT"; "STATUS"; "BUNDLE"; "DESCRIPTION"]); [reflexivity | cbn; lia | reflexivity | reflexivity].
        -- apply (SV ["RAUC"; "SLOT"; "STATUS"; "BUNDLE"; "BUILD"]); [reflexivity | cbn; lia | reflexivity | reflexivity].
        -- apply (SV ["RAUC"; "SLOT"; "STATUS"; "BUNDLE"; "HASH"]); [reflexivity | cbn; lia | reflexivity | reflexivity].
        -- apply (SV ["RAUC"; "SLOT"; "STATUS"; "CHECKSUM"; "SHA256"]); [reflexivity | cbn; lia | reflexivity | reflexivity].
        -- apply (SV ["RAUC"; "SLOT"; "STATUS"; "CHECKSUM"; "SIZE"]); [reflexivity | cbn; lia | reflexivity | reflexivity].
        -- apply (SV ["RAUC"; "SLOT"; "STATUS"; "INSTALLED"; "TIMESTAMP"]); [reflexivity | cbn; lia | reflexivity | reflexivity].
        -- apply (SV ["RAUC"; "SLOT"; "STATUS"; "INSTALLED"; "COUNT"]); [reflexivity | cbn; lia | reflexivity | reflexivity].
        -- apply (SV ["RAUC"; "SLOT"; "STATUS"; "ACTIVATED"; "TIMESTAMP"]); [reflexivity | cbn; lia | reflexivity | reflexivity].
        -- apply (SV ["RAUC"; "SLOT"; "STATUS"; "ACTIVATED"; "COUNT"]); [reflexivity | cbn; lia | reflexivity | reflexivity].
        -- apply (SV ["RAUC"; "SLOT"; "STATUS"; "STATUS"]); [reflexivity | cbn; lia | reflexivity | reflexivity].
  - intros k L.
    assert (SV : forall q, stem_ok q = true -> 2 <= List.length q -> second q = "SLOT" -> sets out (wname (q ++ [dec k])) None).
    { intros q W L2 X. apply S1. rewrite slot_val by assumption. destruct (Nat.ltb_spec k 1) as [Q | Q]; [reflexivity |].
      destruct L as [L | L]; [lia |]. rewrite (proj2 (nth_error_None (c_slots c) (k - 1))) by lia. reflexivity. }
    unfold detail_names. cbn [app]. repeat apply Forall_cons; [.. | apply Forall_nil].
    1: apply (SV ["RAUC"; "SLOT"; "STATE"]). 4: apply (SV ["RAUC"; "SLOT"; "CLASS"]). 7: apply (SV ["RAUC"; "SLOT"; "DEVICE"]).
    10: apply (SV ["RAUC"; "SLOT"; "TYPE"]). 13: apply (SV ["RAUC"; "SLOT"; "BOOTNAME"]). 16: apply (SV ["RAUC"; "SLOT"; "PARENT"]).
    19: apply (SV ["RAUC"; "SLOT"; "MOUNTPOINT"]). 22: apply (SV ["RAUC"; "SLOT"; "BOOT"; "STATUS"]).
    25: apply (SV ["RAUC"; "SLOT"; "STATUS"; "BUNDLE"; "COMPATIBLE"]). 28: apply (SV ["RAUC"; "SLOT"; "STATUS"; "BUNDLE"; "VERSION"]).
    31: apply (SV ["RAUC"; "SLOT"; "STATUS"; "BUNDLE"; "DESCRIPTION"]). 34: apply (SV ["RAUC"; "SLOT"; "STATUS"; "BUNDLE"; "BUILD"]).
    37: apply (SV ["RAUC"; "SLOT"; "STATUS"; "BUNDLE"; "HASH"]). 40: apply (SV ["RAUC"; "SLOT"; "STATUS"; "CHECKSUM"; "SHA256"]).
    43: apply (SV ["RAUC"; "SLOT"; "STATUS"; "CHECKSUM"; "SIZE"]). 46: apply (SV ["RAUC"; "SLOT"; "STATUS"; "INSTALLED"; "TIMESTAMP"]).
    49: apply (SV ["RAUC"; "SLOT"; "STATUS"; "INSTALLED"; "COUNT"]). 52: apply (SV ["RAUC"; "SLOT"; "STATUS"; "ACTIVATED"; "TIMESTAMP"]).
    55: apply (SV ["RAUC"; "SLOT"; "STATUS"; "ACTIVATED"; "COUNT"]). 58: apply (SV ["RAUC"; "SLOT"; "STATUS"; "STATUS"]).
    all: try reflexivity; cbn; lia.
  - intros r x N.
    assert (RV : forall q t v, wok q = true -> second q = "REPO" -> nums q = dec (S r) :: t -> wlast q (wrepo (S r) x) = v -> sets out (wname q) v).
    { intros q t v W X M H. apply S1. rewrite (repo_val T i det c q r t W X M), N. exact H. }
    clear S1 HV. split.
    + assert (O : forall q v, stem_ok q = true -> second (q ++ [dec (S r)]) = "REPO" -> wlast q (repo_table x ++ [(["RAUC"; "REPO"; "ARTIFACTS"], counts (List.length (ar_arts x)))]) = v ->
          sets out (wname (q ++ [dec (S r)])) v).
      { intros q v W X H. apply (RV _ []); [apply (stem_good q [dec (S r)] "" W (num1 _)) | exact X | rewrite (stem_nums q _ W (num1 _)); reflexivity |].
        rewrite repo_own by assumption. exact H. }
      repeat apply Forall_cons; [.. | apply Forall_nil]; cbn [fst snd].
      * apply (O ["RAUC"; "REPO"; "NAME"]); [reflexivity | reflexivity |]. unfold repo_table, opt_row. destruct (ar_path x), (ar_type x), (ar_parent x); reflexivity.
      * apply (O ["RAUC"; "REPO"; "PATH"]); [reflexivity | reflexivity |]. unfold repo_table, opt_row. destruct (ar_path x), (ar_type x), (ar_parent x); reflexivity.
      * apply (O ["RAUC"; "REPO"; "TYPE"]); [reflexivity | reflexivity |]. unfold repo_table, opt_row. destruct (ar_path x), (ar_type x), (ar_parent x); reflexivity.
      * apply (O ["RAUC"; "REPO"; "PARENT"; "CLASS"]); [reflexivity | reflexivity |]. unfold repo_table, opt_row. destruct (ar_path x), (ar_type x), (ar_parent x); reflexivity.
      * apply (O ["RAUC"; "REPO"; "ARTIFACTS"]); [reflexivity | reflexivity |]. rewrite wlast_app. reflexivity.
    + intros a y Na.
      assert (AV : forall q t v, wok q = true -> second q = "REPO" -> nums q = dec (S r) :: dec (S a) :: t -> wlast q (wart (has_par x) (S r) (S a) y) = v -> sets out (wname q) v).
      { intros q t v W X M H. apply (RV q (dec (S a) :: t) v W X M). rewrite (repo_art q (S r) x a t M), Na. exact H. }
      clear RV. split.
      * assert (O : forall q v, stem_ok q = true -> second (q ++ [dec (S r); dec (S a)]) = "REPO" ->
          wlast q [(["RAUC"; "REPO"; "ARTIFACT"; "NAME"], aa_name y); (["RAUC"; "REPO"; "ARTIFACT"; "INSTANCES"], counts (List.length (aa_insts y)))] = v ->
          sets out (wname (q ++ [dec (S r); dec (S a)])) v).
        { intros q v W X H. apply (AV _ []); [apply (stem_good q _ "" W (num2 _ _)) | exact X | rewrite (stem_nums q _ W (num2 _ _)); reflexivity |].
          rewrite art_own by assumption. exact H. }
        repeat apply Forall_cons; [.. | apply Forall_nil]; cbn [fst snd].
        -- apply (O ["RAUC"; "REPO"; "ARTIFACT"; "NAME"]); reflexivity.
        -- apply (O ["RAUC"; "REPO"; "ARTIFACT"; "INSTANCES"]); reflexivity.
      * intros k z Nk.
        assert (O : forall q v, stem_ok q = true -> second (q ++ [dec (S r); dec (S a); dec (S k)]) = "REPO" -> wlast q (inst_table (has_par x) z) = v ->
          sets out (wname (q ++ [dec (S r); dec (S a); dec (S k)])) v).
        { intros q v W X H. apply (AV _ [dec (S k)]); [apply (stem_good q _ "" W (num3 _ _ _)) | exact X | rewrite (stem_nums q _ W (num3 _ _ _)); reflexivity |].
          rewrite art_inst by assumption. rewrite Nk. exact H. }
        change (num (S k)) with (dec (S k)).
        assert (EQ : forall p : string, (p ++ (dec (S r) ++ "_" ++ dec (S a)) ++ "_" ++ dec (S k))%string = (p ++ dec (S r) ++ "_" ++ dec (S a) ++ "_" ++ dec (S k))%string)
          by (intro p; rewrite !app_assoc_s'; reflexivity).
        unfold inst_shown, shown. unfold has_par in O.
        repeat apply Forall_cons; [.. | apply Forall_nil]; cbn [fst snd]; rewrite EQ.
        -- apply (O ["RAUC"; "REPO"; "ARTIFACT"; "INSTANCE"; "CHECKSUM"]); [reflexivity | reflexivity |]. destruct (ar_parent x); reflexivity.
        -- apply (O ["RAUC"; "REPO"; "ARTIFACT"; "INSTANCE"; "ACTIVE"]); [reflexivity | reflexivity |]. destruct (ar_parent x); [reflexivity |]. cbn. destruct (ai_refs z); reflexivity.
        -- apply (O ["RAUC"; "REPO"; "ARTIFACT"; "INSTANCE"; "REFERENCES"]); [reflexivity | reflexivity |]. destruct (ar_parent x); reflexivity.
Qed.

(** every assignment is to a RAUC_ variable *)
Lemma c64_status_names_ok : forall (T : Type) (i : iso T) det (c : cstatus T) out l n v,
  status_shell i det c = Ok out -> sh_eval out = Some l -> In (n, v) l -> rauc_name n = true.
Proof.
  intros T i det c out l n v E Ev H.
  assert (K : known c).
  { unfold status_shell, status_entries in E. intros s Hs. destruct (slots_entries i det 1 (c_slots c)) as [e | |] eqn:Q; try discriminate. clear - Q Hs. revert e Q Hs. generalize 1.
    induction (c_slots c) as [| x l IH]; intros n e Q Hs; [contradiction |]. cbn [slots_entries] in Q. unfold slot_entries at 1 in Q.
    destruct (sstate_str (v_state x)) eqn:X; try discriminate. cbn [bind] in Q. destruct (slots_entries i det (S n) l) eqn:Y; try discriminate.
    destruct Hs as [<- | Hs]; [destruct (v_state x); [discriminate X | discriminate | discriminate | discriminate] |]. eapply IH; eassumption. }
  destruct (status_text T i det c K) as (out' & E' & Ev'). rewrite E in E'. apply Ok_inj in E'. subst out'. rewrite Ev in Ev'. apply Some_inj in Ev'. subst l.
  apply in_map_iff in H as (e & U & H). unfold unw in U. injection U as <- <-. exact (proj2 (proj1 (Forall_forall _ _) (wstatus_good T i det c) _ H)).
Qed.
(** the program stops instead of showing a slot whose state it does not know *)
Lemma c64_status_stops_ok : forall (T : Type) (i : iso T) det (c : cstatus T) s,
  In s (c_slots c) -> v_state s = ST_UNKNOWN -> status_shell i det c = Abort.
Proof.
  intros T i det c s H U. unfold status_shell, status_entries.
  assert (A : slots_entries i det 1 (c_slots c) = Abort).
  { revert H. generalize 1. induction (c_slots c) as [| x l IH]; intros n H; [contradiction |]. cbn [slots_entries].
    destruct H as [-> | H]; [unfold slot_entries; rewrite U; reflexivity |]. rewrite (IH (S n) H).
    unfold slot_entries. destruct (v_state x); reflexivity. }
  rewrite A. reflexivity.
Qed.
