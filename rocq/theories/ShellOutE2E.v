From Coq Require Import Permutation.
From Verif Require Import Base BaseLemmas Slot Image Manifest KeyFile StatusFile EnvKey EnvKeyProofs ShellWords ShellOut ShellOutSpec ShellOutProofs ShellOutInfo ShellOutStatus ShellOutDbus.

Lemma assoc_put : forall (d : dict) k k' v, assoc k (dput d k' v) = if String.eqb k' k then Some v else assoc k d.
Proof.
  intros d k k' v. unfold dput. induction d as [| [a b] d IH]; cbn [assoc_set assoc].
  - destruct (String.eqb_spec k' k) as [-> | N]; reflexivity.
  - destruct (String.eqb_spec a k') as [-> | N]; cbn [assoc].
    + destruct (String.eqb_spec k' k) as [-> | M]; reflexivity.
    + rewrite IH. destruct (String.eqb_spec a k) as [-> | M]; [| reflexivity]. destruct (String.eqb_spec k' k); [congruence | reflexivity].
Qed.
Lemma assoc_opt : forall (d : dict) k k' v, assoc k (dopt d k' v) = if String.eqb k' k then match v with Some x => Some x | None => assoc k d end else assoc k d.
Proof. intros d k k' [v |]; cbn [dopt]; [apply assoc_put | destruct (String.eqb k' k); reflexivity]. Qed.

Lemma goffset_back : forall z, (- 2 ^ 63 <= z < 2 ^ 63)%Z -> to_goffset (of_goffset z) = z.
Proof.
  intros z H. unfold to_goffset, of_goffset. destruct (Z.ltb_spec z 0) as [N | N].
  - assert (E : (z mod 2 ^ 64 = z + 2 ^ 64)%Z) by (symmetry; apply (Z.mod_unique _ _ (-1)); lia). rewrite E.
    destruct (N.ltb_spec (Z.to_N (z + 2 ^ 64)) (2 ^ 63)) as [L | L]; lia.
  - rewrite Z.mod_small by lia. destruct (N.ltb_spec (Z.to_N z) (2 ^ 63)) as [L | L]; lia.
Qed.

Definition state_val (s : sstate) : option gval :=
  match s with ST_UNKNOWN => None | ST_ACTIVE => Some (VS "active") | ST_INACTIVE => Some (VS "inactive") | ST_BOOTED => Some (VS "booted") end.
(** the dictionary as a list of optional entries *)
Fixpoint puts (l : list (string * option gval)) (d : dict) : dict := match l with [] => d | (k, v) :: r => puts r (dopt d k v) end.
Definition fields {T} (i : iso T) (s : vslot T) (r : rstat T) : list (string * option gval) :=
  [("class", Some (VS (v_class s))); ("device", option_map VS (v_device s)); ("type", option_map VS (v_type s)); ("bootname", option_map VS (v_bootname s));
   ("state", state_val (v_state s)); ("parent", option_map VS (v_parent s));
   ("mountpoint", option_map VS (match v_mount s with Some x => Some x | None => v_ext_mount s end));
   ("boot-status", option_map (fun _ => VS (bstate_str (v_boot s))) (v_bootname s));
   ("bundle.compatible", option_map VS (rs_compatible r)); ("bundle.version", option_map VS (rs_version r));
   ("bundle.description", option_map VS (rs_description r)); ("bundle.build", option_map VS (rs_build r));
   ("bundle.hash", option_map VS (rs_hash r)); ("status", option_map VS (rs_status r));
   ("sha256", option_map VS (rs_digest r)); ("size", option_map (fun _ => VT (of_goffset (rs_size r))) (rs_digest r));
   ("installed.transaction", option_map VS (rs_txn r));
   ("installed.timestamp", option_map (fun t => VS (iso_fmt i t)) (rs_installed r)); ("installed.count", option_map (fun _ => VU (rs_icount r)) (rs_installed r));
   ("activated.timestamp", option_map (fun t => VS (iso_fmt i t)) (rs_activated r)); ("activated.count", option_map (fun _ => VU (rs_acount r)) (rs_activated r))].
Lemma slot_dict_fields : forall T (i : iso T) s r, slot_dict i s r = Ok (puts (fields i s r) []).
Proof.
  intros T i s r. unfold slot_dict, fields. cbn [puts].
  destruct (v_state s), (rs_digest r), (rs_installed r), (rs_activated r); reflexivity.
Qed.
Lemma puts_other : forall k l d, existsb (String.eqb k) (map fst l) = false -> assoc k (puts l d) = assoc k d.
Proof.
  intros k. induction l as [| [a v] l IH]; intros d H; [reflexivity |]. cbn [map fst existsb] in H. apply orb_false_elim in H as [H1 H2]. cbn [puts].
  rewrite IH by assumption. rewrite assoc_opt, String.eqb_sym, H1. reflexivity.
Qed.
Fixpoint once (l : list string) : bool := match l with [] => true | k :: r => negb (existsb (String.eqb k) r) && once r end.
Lemma puts_assoc : forall k l d, once (map fst l) = true -> assoc k (puts l d) = match assoc k l with Some (Some v) => Some v | _ => assoc k d end.
Proof.
  intros k. induction l as [| [a v] l IH]; intros d H; [reflexivity |]. cbn [map fst once] in H. apply andb_prop in H as [H1 H2]. apply negb_true_iff in H1. cbn [puts assoc].
  destruct (String.eqb_spec a k) as [-> | N].
  - rewrite puts_other by assumption. rewrite assoc_opt, String.eqb_refl. destruct v; reflexivity.
  - rewrite IH by assumption. rewrite assoc_opt. destruct (String.eqb_spec a k); [contradiction | reflexivity].
Qed.
Lemma field_of : forall T (i : iso T) s r k, assoc k (puts (fields i s r) []) = match assoc k (fields i s r) with Some (Some v) => Some v | _ => None end.
Proof. intros. rewrite puts_assoc by reflexivity. reflexivity. Qed.

Lemma client_sees : forall T (i : iso T) det s r,
  (forall t, iso_parse i (iso_fmt i t) = Some t) -> (- 2 ^ 63 <= rs_size r < 2 ^ 63)%Z ->
  client_slot i det (v_name s) (puts (fields i s r) []) = as_seen det (s, r).
Proof.
  intros T i det s r P Z. unfold client_slot, as_seen, get_state, received, dget_s, dget_t, dget_u. cbn [fst snd]. rewrite !field_of.
  unfold fields. cbn [assoc String.eqb Ascii.eqb Bool.eqb].
  destruct s as [nm cl dv ty bn st pa mo em bo vs]. destruct r as [r1 r2 r3 r4 r5 r6 r7 r8 r9 r10 r11 r12 r13]. cbn [v_name v_class v_device v_type v_bootname v_state v_parent v_mount v_ext_mount v_boot v_status
    rs_compatible rs_version rs_description rs_build rs_hash rs_status rs_digest rs_size rs_txn rs_installed rs_icount rs_activated rs_acount] in *.
  assert (G : forall x : option string, match match option_map VS x with Some v => Some v | None => None end with Some (VS y) => Some y | _ => None end = x) by (intros []; reflexivity).
  rewrite !G.
  assert (E2 : sstate_of match match state_val st with Some v => Some v | None => None end with Some (VS x) => Some x | _ => None end = st) by (destruct st; reflexivity).
  rewrite E2.
  assert (E3 : to_goffset match match option_map (fun _ : string => VT (of_goffset r8)) r7 with Some v => Some v | None => None end with Some (VT n) => n | _ => 0%N end = match r7 with Some _ => r8 | None => 0%Z end)
    by (destruct r7; [apply goffset_back; assumption | reflexivity]).
  rewrite E3.
  destruct bn as [b |], r10 as [t |], r12 as [t' |]; destruct det; cbn [option_map]; rewrite ?P; try reflexivity; destruct bo; reflexivity.
Qed.

Lemma slot_array_eq : forall T (i : iso T) l, slot_array i l = Ok (map (fun sr => (v_name (fst sr), puts (fields i (fst sr) (snd sr)) [])) l).
Proof.
  intros T i. induction l as [| [s r] l IH]; [reflexivity |]. cbn [slot_array]. rewrite slot_dict_fields. cbn [bind]. rewrite IH. reflexivity.
Qed.
Lemma client_slots_eq : forall T (i : iso T) det l known,
  (forall t, iso_parse i (iso_fmt i t) = Some t) -> (forall s r, In (s, r) l -> (- 2 ^ 63 <= rs_size r < 2 ^ 63)%Z) ->
  NoDup (map (fun sr => v_name (fst sr)) l) -> (forall sr, In sr l -> ~ In (v_name (fst sr)) known) ->
  client_slots i det known (map (fun sr => (v_name (fst sr), puts (fields i (fst sr) (snd sr)) [])) l) = map (as_seen det) l.
Proof.
  intros T i det. induction l as [| [s r] l IH]; intros known P Z ND K; [reflexivity |]. cbn [map client_slots fst snd].
  inversion ND as [| ? ? N1 N2]; subst.
  assert (E : existsb (String.eqb (v_name s)) known = false).
  { destruct (existsb _ known) eqn:E; [| reflexivity]. apply existsb_exists in E as (x & H1 & H2). apply String.eqb_eq in H2 as <-. destruct (K (s, r) (or_introl eq_refl) H1). }
  rewrite E. rewrite (client_sees T i det s r P) by (apply (Z s r); left; reflexivity). rewrite IH; [reflexivity | exact P | | exact N2 |].
  - intros s' r' H. apply (Z s' r'). right. exact H.
  - intros sr H [X | X].
    + apply N1. cbn [fst]. rewrite X. apply in_map_iff. exists sr. split; [reflexivity | exact H].
    + exact (K sr (or_intror H) X).
Qed.

Definition no_blank (s : string) : bool := no_char " " s.

(** the assumptions about the service's slots *)
Definition service_ok {T} (i : iso T) (slots : list (vslot T * rstat T)) : Prop :=
  NoDup (map (fun sr => v_name (fst sr)) slots) /\
  (forall s r, In (s, r) slots -> v_state s <> ST_UNKNOWN /\ (- 2 ^ 63 <= rs_size r < 2 ^ 63)%Z /\
     (forall p, v_parent s = Some p -> exists sr, In sr slots /\ v_name (fst sr) = p)) /\
  (forall t, iso_parse i (iso_fmt i t) = Some t).

Lemma via_dbus_eq : forall T (i : iso T) det compatible variant version bootslot primary slots repos order,
  service_ok i slots -> (forall l, Permutation l (order l)) ->
  let l := order (map (as_seen det) slots) in
  via_dbus i det compatible variant version bootslot primary slots repos order
  = Ok (mkC (dbus_prop compatible) (dbus_prop variant) (dbus_prop version) (dbus_prop bootslot)
        (match primary with Some p => if existsb (fun s => String.eqb p (v_name s)) l then Some p else None | None => None end) l repos).
Proof.
  intros T i det compatible variant version bootslot primary slots repos order (ND & A & P) O l. unfold via_dbus. rewrite slot_array_eq. cbn [bind].
  rewrite client_slots_eq; [| exact P | intros s r H; exact (proj1 (proj2 (A s r H))) | exact ND | intros sr _ []]. fold l.
  assert (K : parents_known l = true).
  { unfold parents_known. apply forallb_forall. intros x Hx. apply (Permutation_in x (Permutation_sym (O _))) in Hx. apply in_map_iff in Hx as ([s r] & <- & Hx).
    unfold as_seen. cbn [fst snd v_parent]. destruct (v_parent s) as [p |] eqn:Q; [| reflexivity]. destruct (proj2 (proj2 (A s r Hx)) p Q) as (sr & H1 & H2).
    apply existsb_exists. exists (as_seen det sr). split; [| unfold as_seen; cbn [v_name]; rewrite H2; apply String.eqb_refl].
    unfold l. apply (Permutation_in _ (O _)). apply in_map. exact H1. }
  rewrite K. reflexivity.
Qed.

Lemma split_words : forall l, Forall (fun w => no_blank w = true) l -> l <> [] -> split_on " " (words l) = l.
Proof. intros l H N. apply split_on_join; [exact N | exact H]. Qed.

(** from the service to the shell *)
Lemma c64_end_to_end_ok : forall (T : Type) (i : iso T) det compatible variant version bootslot primary (slots : list (vslot T * rstat T)) repos order,
  service_ok i slots -> (forall l, Permutation l (order l)) ->
  exists c out, via_dbus i det compatible variant version bootslot primary slots repos order = Ok c /\ status_shell i det c = Ok out /\
  shown out "" [("RAUC_SYSTEM_COMPATIBLE", Some (or_empty compatible)); ("RAUC_SYSTEM_VARIANT", Some (or_empty variant));
                ("RAUC_SYSTEM_VERSION", Some (or_empty version)); ("RAUC_SYSTEM_BOOTED_BOOTNAME", Some (or_empty bootslot));
                ("RAUC_SLOTS", Some (counted (List.length slots))); ("RAUC_REPOS", Some (counted (List.length repos)))] /\
  (forall p, primary = Some p -> In p (map (fun sr => v_name (fst sr)) slots) -> sets out "RAUC_BOOT_PRIMARY" (Some p)) /\
  exists names number, sets out "RAUC_SYSTEM_SLOTS" (Some names) /\
    (forall s r, In (s, r) slots -> 1 <= number (v_name s) <= List.length slots /\
       shown out (num (number (v_name s))) (slot_vars (as_seen det (s, r))) /\
       (det = true -> shown out (num (number (v_name s))) (combine detail_names (map Some (detail_values i (received r))))) /\
       (det = false -> Forall (fun p => sets out (p ++ num (number (v_name s))) None) detail_names) /\
       (forallb (fun sr => no_blank (v_name (fst sr))) slots = true -> nth_error (split_on " " names) (number (v_name s) - 1) = Some (v_name s))) /\
    (forall s r s' r', In (s, r) slots -> In (s', r') slots -> number (v_name s) = number (v_name s') -> v_name s = v_name s') /\
    (forall k x, nth_error repos k = Some x -> repo_shown out (num (S k)) x).
Proof.
  intros T i det compatible variant version bootslot primary slots repos order SO O. pose proof SO as (ND & A & P).
  rewrite (via_dbus_eq T i det compatible variant version bootslot primary slots repos order SO O).
  set (l := order (map (as_seen det) slots)). set (pri := match primary with Some p => _ | None => None end). 
  set (c := mkC (dbus_prop compatible) (dbus_prop variant) (dbus_prop version) (dbus_prop bootslot) pri l repos).
  assert (PL : Permutation (map (as_seen det) slots) l) by apply O.
  assert (LEN : List.length l = List.length slots) by (rewrite <- (Permutation_length PL); apply map_length).
  assert (K : forall s, In s (c_slots c) -> v_state s <> ST_UNKNOWN).
  { intros s H. apply (Permutation_in s (Permutation_sym PL)) in H. apply in_map_iff in H as ([s' r'] & <- & H). exact (proj1 (A s' r' H)). }
  destruct (c64_status_ok T i det c K) as (out & E & H1 & H2 & H3 & H4). exists c, out. split; [reflexivity |]. split; [exact E |].
  unfold shown in H1. inversion H1 as [| ? ? X1 Y1]; subst. inversion Y1 as [| ? ? X2 Y2]; subst. inversion Y2 as [| ? ? X3 Y3]; subst. inversion Y3 as [| ? ? X4 Y4]; subst.
  inversion Y4 as [| ? ? X5 Y5]; subst. inversion Y5 as [| ? ? X6 Y6]; subst. inversion Y6 as [| ? ? X7 Y7]; subst. inversion Y7 as [| ? ? X8 _]; subst.
  clear H1 Y1 Y2 Y3 Y4 Y5 Y6 Y7. cbn [fst snd c_slots c_repos c] in *. rewrite !app_nil_s' in *.
  assert (NDl : NoDup (map v_name l)).
  { apply (Permutation_NoDup (l := map v_name (map (as_seen det) slots))); [apply Permutation_map; exact PL |]. rewrite map_map. exact ND. }
  split; [| split].
  - repeat apply Forall_cons; [.. | apply Forall_nil]; cbn [fst snd]; rewrite ?app_nil_s'; try assumption. rewrite <- LEN. exact X7.
  - intros p -> Hp. assert (Q : pri = Some p).
    { unfold pri. assert (Z : existsb (fun s => String.eqb p (v_name s)) l = true); [| rewrite Z; reflexivity].
      apply in_map_iff in Hp as (sr & <- & Hp). apply existsb_exists. exists (as_seen det sr). split; [apply (Permutation_in _ PL); apply in_map; exact Hp | apply String.eqb_refl]. }
    rewrite Q in X5. exact X5.
  - (* the number of a slot: its position in the list *)
    set (pos := fix pos (n : string) (l : list (vslot T)) : nat := match l with [] => 0 | s :: r => if String.eqb (v_name s) n then 0 else S (pos n r) end).
    assert (PP : forall x m, In x m -> NoDup (map v_name m) -> nth_error m (pos (v_name x) m) = Some x).
    { intros x. induction m as [| y m IH]; intros Hx Hm; [contradiction |]. cbn [map] in Hm. inversion Hm as [| ? ? M1 M2]; subst. cbn [pos].
      destruct (String.eqb_spec (v_name y) (v_name x)) as [Q | Q].
      - destruct Hx as [-> | Hx]; [reflexivity |]. exfalso. apply M1. rewrite Q. apply in_map. exact Hx.
      - destruct Hx as [-> | Hx]; [contradiction |]. cbn [nth_error]. apply IH; assumption. }
    exists (words (map v_name l)), (fun n => S (pos n l)). split; [exact X6 |]. split; [| split].
    + intros s r H. assert (Hx : In (as_seen det (s, r)) l) by (apply (Permutation_in _ PL); apply in_map; exact H).
      pose proof (PP _ _ Hx NDl) as N. change (v_name (as_seen det (s, r))) with (v_name s) in N.
      assert (B : pos (v_name s) l < List.length l) by (apply nth_error_Some; rewrite N; discriminate).
      split; [rewrite <- LEN; lia |]. destruct (H2 _ _ N) as [Q1 Q2]. split; [exact Q1 |]. split; [| split].
      * intro D. subst det. exact Q2.
      * intro D. subst det. unfold shown, detail_names in Q2. cbn [List.length repeat combine] in Q2. unfold detail_names.
        clear - Q2. repeat (match goal with H : Forall _ (_ :: _) |- _ => inversion H; subst; clear H end). cbn [fst snd] in *. repeat constructor; assumption.
      * intro NB. assert (NEl : map v_name l <> []) by (destruct l; [contradiction Hx | discriminate]). rewrite split_words.
        { replace (S (pos (v_name s) l) - 1) with (pos (v_name s) l) by lia. rewrite nth_error_map, N. reflexivity. }
        { apply Forall_forall. intros w Hw. apply in_map_iff in Hw as (x & <- & Hx'). apply (Permutation_in _ (Permutation_sym PL)) in Hx'.
          apply in_map_iff in Hx' as (sr & <- & Hx'). rewrite forallb_forall in NB. exact (NB sr Hx'). }
        { exact NEl. }
    + intros s r s' r' H H' Q. injection Q as Q.
      assert (Hx : In (as_seen det (s, r)) l) by (apply (Permutation_in _ PL); apply in_map; exact H).
      assert (Hx' : In (as_seen det (s', r')) l) by (apply (Permutation_in _ PL); apply in_map; exact H').
      pose proof (PP _ _ Hx NDl) as N. pose proof (PP _ _ Hx' NDl) as N'. change (v_name (as_seen det (s, r))) with (v_name s) in N.
      change (v_name (as_seen det (s', r'))) with (v_name s') in N'. rewrite Q, N' in N. apply Some_inj in N.
      apply (f_equal v_name) in N. symmetry. exact N.
    + exact H4.
Qed.
