From Verif Require Import Base BaseLemmas Slot Image Manifest KeyFile StatusFile EnvKey EnvKeyProofs ShellWords ShellOut ShellOutSpec ShellOutProofs ShellOutInfo.

(** ** tables: a stem of words and a value; the numbers follow *)
Definition number (ix : list string) (t : list went) : list went := map (fun e => (fst e ++ ix, snd e)) t.
Lemma weqb_tail : forall a b x, weqb (a ++ x) (b ++ x) = weqb a b.
Proof.
  intros a b x. destruct (weqb a b) eqn:E.
  - apply weqb_iff in E as ->. apply weqb_iff. reflexivity.
  - destruct (weqb (a ++ x) (b ++ x)) eqn:F; [| reflexivity]. apply weqb_iff in F. apply app_inv_tail in F as ->. rewrite (proj2 (weqb_iff b b) eq_refl) in E. discriminate.
Qed.
Lemma number_last : forall ix t q, wlast (q ++ ix) (number ix t) = wlast q t.
Proof. intros ix t q. induction t as [| [ws v] t IH]; [reflexivity |]. cbn [number map wlast fst snd]. unfold number in IH. rewrite IH, weqb_tail. reflexivity. Qed.
Definition stem_ok (ws : list string) : bool := forallb (no_char "_") ws && rauc_name (wname ws ++ "_") && forallb (fun w => negb (isnum w)) ws
  && match ws with [] => false | _ => true end.
Definition numeric (ix : list string) : Prop := ix <> [] /\ Forall (fun w => exists n, w = dec n) ix.
Lemma wname_app : forall a b, a <> [] -> b <> [] -> wname (a ++ b) = (wname a ++ "_" ++ wname b)%string.
Proof.
  intros a b Ha Hb. unfold wname. induction a as [| x a IH]; [contradiction |]. destruct a as [| y a].
  - cbn [app]. destruct b as [| z b]; [contradiction |]. reflexivity.
  - change ((x :: y :: a) ++ b) with (x :: (y :: a) ++ b). change (join "_" (x :: (y :: a) ++ b)) with (x ++ "_" ++ join "_" ((y :: a) ++ b))%string.
    rewrite IH by discriminate. change (join "_" (x :: y :: a)) with (x ++ "_" ++ join "_" (y :: a))%string. rewrite !app_assoc_s'. reflexivity.
Qed.
Lemma numeric_chars : forall ix, numeric ix -> all_chars (fun c => is_upper c || is_num c || Ascii.eqb c "_") (wname ix) = true.
Proof.
  intros ix [_ H]. unfold wname. induction H as [| w ix (n & ->) H IH]; [reflexivity |]. destruct ix as [| x ix]; [apply dec_ok |].
  change (join "_" (dec n :: x :: ix)) with (dec n ++ "_" ++ join "_" (x :: ix))%string. rewrite !all_chars_app, dec_ok, IH. reflexivity.
Qed.
Lemma numeric_filter : forall ix, numeric ix -> filter isnum ix = ix.
Proof. intros ix [_ H]. induction H as [| w ix (n & ->) H IH]; [reflexivity |]. cbn [filter]. rewrite dec_isnum, IH. reflexivity. Qed.
Lemma stem_nums : forall ws ix, stem_ok ws = true -> numeric ix -> nums (ws ++ ix) = ix.
Proof.
  intros ws ix H X. unfold nums. rewrite filter_app, (numeric_filter ix X). unfold stem_ok in H. apply andb_prop in H as [H _]. apply andb_prop in H as [_ H].
  replace (filter isnum ws) with (@nil string); [reflexivity |]. induction ws as [| w ws IH]; [reflexivity |]. cbn [forallb] in H. apply andb_prop in H as [H1 H2].
  cbn [filter]. apply negb_true_iff in H1. rewrite H1. apply IH; exact H2.
Qed.
Lemma stem_good : forall ws ix v, stem_ok ws = true -> numeric ix -> good (ws ++ ix, v).
Proof.
  intros ws ix v H X. unfold stem_ok in H. apply andb_prop in H as [H N]. apply andb_prop in H as [H _]. apply andb_prop in H as [H1 H2]. split; cbn [fst].
  - unfold wok. destruct (ws ++ ix) eqn:E; [destruct ws; discriminate |]. rewrite <- E, forallb_app, H1. destruct X as [_ X]. cbn [andb].
    clear - X. induction X as [| w ix (n & ->) X IH]; [reflexivity |]. cbn [forallb]. rewrite dec_no_us, IH. reflexivity.
  - assert (A : ws <> []) by (destruct ws; [discriminate | discriminate]). rewrite (wname_app ws ix A (proj1 X)), <- app_assoc_s'. apply rauc_name_app; [assumption | apply numeric_chars; assumption].
Qed.
Definition stems (t : list went) : bool := forallb (fun e => stem_ok (fst e)) t.
Lemma number_good : forall ix t, stems t = true -> numeric ix -> Forall good (number ix t).
Proof.
  intros ix t H X. apply Forall_forall. intros e He. apply in_map_iff in He as ([ws v] & <- & He). cbn [fst snd]. apply stem_good; [| assumption].
  unfold stems in H. rewrite forallb_forall in H. exact (H _ He).
Qed.
Lemma number_nums : forall ix t ws v, stems t = true -> numeric ix -> In (ws, v) (number ix t) -> nums ws = ix.
Proof.
  intros ix t ws v H X He. apply in_map_iff in He as ([ws' v'] & E & He). cbn [fst snd] in E. injection E as <- <-. apply stem_nums; [| assumption].
  unfold stems in H. rewrite forallb_forall in H. exact (H _ He).
Qed.
Lemma num1 : forall a, numeric [dec a]. Proof. intro a. split; [discriminate |]. repeat constructor. exists a. reflexivity. Qed.
Lemma num2 : forall a b, numeric [dec a; dec b]. Proof. intros a b. split; [discriminate |]. repeat constructor; eexists; reflexivity. Qed.
Lemma num3 : forall a b c, numeric [dec a; dec b; dec c]. Proof. intros a b c. split; [discriminate |]. repeat constructor; eexists; reflexivity. Qed.

(** ** the tables of rauc status *)
Definition rstat_table {T} (i : iso T) (r : rstat T) : list went :=
  [(["RAUC"; "SLOT"; "STATUS"; "BUNDLE"; "COMPATIBLE"], ne (rs_compatible r));
   (["RAUC"; "SLOT"; "STATUS"; "BUNDLE"; "VERSION"], ne (rs_version r));
   (["RAUC"; "SLOT"; "STATUS"; "BUNDLE"; "DESCRIPTION"], ne (rs_description r));
   (["RAUC"; "SLOT"; "STATUS"; "BUNDLE"; "BUILD"], ne (rs_build r));
   (["RAUC"; "SLOT"; "STATUS"; "BUNDLE"; "HASH"], ne (rs_hash r));
   (["RAUC"; "SLOT"; "STATUS"; "CHECKSUM"; "SHA256"], ne (rs_digest r));
   (["RAUC"; "SLOT"; "STATUS"; "CHECKSUM"; "SIZE"], decz (rs_size r));
   (["RAUC"; "SLOT"; "STATUS"; "INSTALLED"; "TIMESTAMP"], ne (option_map (iso_fmt i) (rs_installed r)));
   (["RAUC"; "SLOT"; "STATUS"; "INSTALLED"; "COUNT"], print_num 10 (rs_icount r));
   (["RAUC"; "SLOT"; "STATUS"; "ACTIVATED"; "TIMESTAMP"], ne (option_map (iso_fmt i) (rs_activated r)));
   (["RAUC"; "SLOT"; "STATUS"; "ACTIVATED"; "COUNT"], print_num 10 (rs_acount r));
   (["RAUC"; "SLOT"; "STATUS"; "STATUS"], ne (rs_status r))].
Definition slot_table {T} (s : vslot T) : list went :=
  [(["RAUC"; "SLOT"; "STATE"], state_text (v_state s));
   (["RAUC"; "SLOT"; "CLASS"], v_class s);
   (["RAUC"; "SLOT"; "DEVICE"], pnull (v_device s));
   (["RAUC"; "SLOT"; "TYPE"], pnull (v_type s));
   (["RAUC"; "SLOT"; "BOOTNAME"], ne (v_bootname s));
   (["RAUC"; "SLOT"; "PARENT"], ne (v_parent s));
   (["RAUC"; "SLOT"; "MOUNTPOINT"], ne (v_mount s));
   (["RAUC"; "SLOT"; "BOOT"; "STATUS"], match v_bootname s with Some _ => bstate_str (v_boot s) | None => EmptyString end)].
Definition all_table {T} (i : iso T) (det : bool) (s : vslot T) : list went :=
  slot_table s ++ match (if det then v_status s else None) with None => [] | Some r => rstat_table i r end.
Definition wslot {T} (i : iso T) (det : bool) (n : nat) (s : vslot T) : list went := number [dec n] (all_table i det s).
Definition counts (k : nat) : string := join " " (map dec (seq 1 k)).
Definition inst_table (par : bool) (x : ainst) : list went :=
  [(["RAUC"; "REPO"; "ARTIFACT"; "INSTANCE"; "CHECKSUM"], ai_checksum x);
   if par then (["RAUC"; "REPO"; "ARTIFACT"; "INSTANCE"; "REFERENCES"], join " " (ai_refs x))
   else (["RAUC"; "REPO"; "ARTIFACT"; "INSTANCE"; "ACTIVE"], match ai_refs x with [] => "0" | _ => "1" end)].
Definition winst (par : bool) (r a k : nat) (x : ainst) : list went := number [dec r; dec a; dec k] (inst_table par x).
Definition wart (par : bool) (r a : nat) (x : aart) : list went :=
  number [dec r; dec a] [(["RAUC"; "REPO"; "ARTIFACT"; "NAME"], aa_name x)]
  ++ numbered (winst par r a) 1 (aa_insts x)
  ++ number [dec r; dec a] [(["RAUC"; "REPO"; "ARTIFACT"; "INSTANCES"], counts (List.length (aa_insts x)))].
Definition opt_row (ws : list string) (v : option string) : list went := match v with Some x => [(ws, x)] | None => [] end.
Definition repo_table (x : arepo) : list went :=
  (["RAUC"; "REPO"; "NAME"], ar_name x) :: opt_row ["RAUC"; "REPO"; "PATH"] (ar_path x) ++ opt_row ["RAUC"; "REPO"; "TYPE"] (ar_type x)
  ++ opt_row ["RAUC"; "REPO"; "PARENT"; "CLASS"] (ar_parent x).
Definition has_par (x : arepo) : bool := match ar_parent x with Some _ => true | None => false end.
Definition wrepo (r : nat) (x : arepo) : list went :=
  number [dec r] (repo_table x)
  ++ numbered (wart (has_par x) r) 1 (ar_arts x)
  ++ number [dec r] [(["RAUC"; "REPO"; "ARTIFACTS"], counts (List.length (ar_arts x)))].
Definition wstat_head {T} (c : cstatus T) : list went :=
  [(["RAUC"; "SYSTEM"; "COMPATIBLE"], pnull (c_compatible c));
   (["RAUC"; "SYSTEM"; "VARIANT"], pnull (c_variant c));
   (["RAUC"; "SYSTEM"; "VERSION"], pnull (c_version c));
   (["RAUC"; "SYSTEM"; "BOOTED"; "BOOTNAME"], pnull (c_bootslot c));
   (["RAUC"; "BOOT"; "PRIMARY"], pnull (c_primary c));
   (["RAUC"; "SYSTEM"; "SLOTS"], join " " (map v_name (c_slots c)));
   (["RAUC"; "SLOTS"], counts (List.length (c_slots c)))].
Definition wstatus {T} (i : iso T) (det : bool) (c : cstatus T) : list went :=
  wstat_head c ++ numbered (wslot i det) 1 (c_slots c) ++ numbered wrepo 1 (c_repos c) ++ [(["RAUC"; "REPOS"], counts (List.length (c_repos c)))].

Definition known {T} (c : cstatus T) : Prop := forall s, In s (c_slots c) -> v_state s <> ST_UNKNOWN.

Lemma slot_entries_eq : forall T (i : iso T) det n s, v_state s <> ST_UNKNOWN -> slot_entries i det n s = Ok (map entry (map unw (wslot i det n s))).
Proof.
  intros T i det n s K. unfold slot_entries, wslot, all_table, slot_table.
  destruct (v_state s); [contradiction | | |]; (destruct (if det then v_status s else None); reflexivity).
Qed.
Lemma slots_entries_eq : forall T (i : iso T) det l n, (forall s, In s l -> v_state s <> ST_UNKNOWN) ->
  slots_entries i det n l = Ok (map entry (map unw (numbered (wslot i det) n l))).
Proof.
  intros T i det. induction l as [| s l IH]; intros n K; [reflexivity |]. cbn [slots_entries numbered].
  rewrite slot_entries_eq by (apply K; left; reflexivity). cbn [bind]. rewrite IH by (intros; apply K; right; assumption). cbn [bind]. rewrite !map_app. reflexivity.
Qed.
Lemma winst_eq : forall par r a k x, map entry (map unw (winst par r a k x)) = inst_entries par r a k x.
Proof.
  intros par r a k x. unfold winst, inst_table, inst_entries. destruct par; reflexivity.
Qed.
Lemma wart_eq : forall par r a x, map entry (map unw (wart par r a x)) = art_entries par r a x.
Proof.
  intros par r a x. unfold wart, art_entries. rewrite !map_app, !numbered_map. rewrite (numbered_ext _ (inst_entries par r a)) by (intros; apply winst_eq).
  reflexivity.
Qed.
Lemma wrepo_eq : forall r x, map entry (map unw (wrepo r x)) = repo_entries r x.
Proof.
  intros r x. unfold wrepo, repo_entries. rewrite !map_app, !numbered_map. rewrite (numbered_ext _ (art_entries (has_par x) r)) by (intros; apply wart_eq).
  unfold repo_table, number, opt_row, opt_entry, has_par. destruct (ar_path x), (ar_type x), (ar_parent x); reflexivity.
Qed.
Lemma wstatus_eq : forall T (i : iso T) det c, known c -> status_entries i det c = Ok (map entry (map unw (wstatus i det c))).
Proof.
  intros T i det c K. unfold status_entries, wstatus. rewrite slots_entries_eq by exact K. cbn [bind]. f_equal. rewrite !map_app.
  apply f_equal2; [reflexivity |]. apply f_equal2; [reflexivity |]. apply f_equal2; [| reflexivity].
  rewrite !numbered_map. apply numbered_ext. intros k x. symmetry. apply wrepo_eq.
Qed.

(** goodness, numbers, second words *)
Lemma all_table_stems : forall T (i : iso T) det s, stems (all_table i det s) = true.
Proof. intros T i det s. unfold stems, all_table. rewrite forallb_app. destruct (if det then v_status s else None); reflexivity. Qed.
Lemma inst_table_stems : forall par x, stems (inst_table par x) = true. Proof. intros [] x; reflexivity. Qed.
Lemma repo_table_stems : forall x, stems (repo_table x) = true.
Proof. intro x. unfold stems, repo_table, opt_row. destruct (ar_path x), (ar_type x), (ar_parent x); reflexivity. Qed.
Lemma wart_good : forall par r a x, Forall good (wart par r a x).
Proof.
  intros par r a x. unfold wart. repeat (apply Forall_app; split).
  - apply number_good; [reflexivity | apply num2].
  - apply numbered_forall. intros k y. apply number_good; [apply inst_table_stems | apply num3].
  - apply number_good; [reflexivity | apply num2].
Qed.
Lemma wrepo_good : forall r x, Forall good (wrepo r x).
Proof.
  intros r x. unfold wrepo. repeat (apply Forall_app; split).
  - apply number_good; [apply repo_table_stems | apply num1].
  - apply numbered_forall. intros. apply wart_good.
  - apply number_good; [reflexivity | apply num1].
Qed.
Lemma wstatus_good : forall T (i : iso T) det c, Forall good (wstatus i det c).
Proof.
  intros T i det c. unfold wstatus. repeat (apply Forall_app; split).
  - unfold wstat_head. repeat (apply Forall_cons; [split; reflexivity |]). apply Forall_nil.
  - apply numbered_forall. intros. apply number_good; [apply all_table_stems | apply num1].
  - apply numbered_forall. apply wrepo_good.
  - repeat (apply Forall_cons; [split; reflexivity |]). apply Forall_nil.
Qed.
Lemma wart_nums : forall par r a x ws v, In (ws, v) (wart par r a x) -> exists t, nums ws = dec r :: dec a :: t.
Proof.
  intros par r a x ws v H. unfold wart in H. apply in_app_or in H as [H | H]; [| apply in_app_or in H as [H | H]].
  - apply number_nums in H; [| reflexivity | apply num2]. eexists. exact H.
  - apply numbered_in in H as (k & y & _ & H). apply number_nums in H; [| apply inst_table_stems | apply num3]. eexists. exact H.
  - apply number_nums in H; [| reflexivity | apply num2]. eexists. exact H.
Qed.
Lemma wrepo_nums : forall r x ws v, In (ws, v) (wrepo r x) -> exists t, nums ws = dec r :: t.
Proof.
  intros r x ws v H. unfold wrepo in H. apply in_app_or in H as [H | H]; [| apply in_app_or in H as [H | H]].
  - apply number_nums in H; [| apply repo_table_stems | apply num1]. eexists. exact H.
  - apply numbered_in in H as (k & y & _ & H). apply wart_nums in H as (t & H). eexists. exact H.
  - apply number_nums in H; [| reflexivity | apply num1]. eexists. exact H.
Qed.
Lemma wslot_nums : forall T (i : iso T) det n s ws v, In (ws, v) (wslot i det n s) -> nums ws = [dec n].
Proof. intros T i det n s ws v H. apply number_nums in H; [exact H | apply all_table_stems | apply num1]. Qed.
Definition second (ws : list string) : string := nth 1 ws "".
Lemma number_second : forall x ix t ws v, forallb (fun e => match fst e with _ :: w :: _ => String.eqb w x | _ => false end) t = true -> In (ws, v) (number ix t) -> second ws = x.
Proof.
  intros x ix t ws v H He. apply in_map_iff in He as ([w' v'] & E & He). cbn [fst snd] in E. injection E as <- <-. rewrite forallb_forall in H. specialize (H _ He). cbn [fst] in H.
  destruct w' as [| p [| q w']]; try discriminate. apply String.eqb_eq in H as <-. reflexivity.
Qed.
Lemma wslot_second : forall T (i : iso T) det n s ws v, In (ws, v) (wslot i det n s) -> second ws = "SLOT".
Proof.
  intros T i det n s ws v H. eapply number_second; [| exact H]. unfold all_table. rewrite forallb_app. destruct (if det then v_status s else None); reflexivity.
Qed.
Lemma wart_second : forall par r a x ws v, In (ws, v) (wart par r a x) -> second ws = "REPO".
Proof.
  intros par r a x ws v H. unfold wart in H. apply in_app_or in H as [H | H]; [| apply in_app_or in H as [H | H]].
  - eapply number_second; [| exact H]. reflexivity.
  - apply numbered_in in H as (k & y & _ & H). eapply number_second; [| exact H]. destruct par; reflexivity.
  - eapply number_second; [| exact H]. reflexivity.
Qed.
Lemma wrepo_second : forall r x ws v, In (ws, v) (wrepo r x) -> second ws = "REPO".
Proof.
  intros r x ws v H. unfold wrepo in H. apply in_app_or in H as [H | H]; [| apply in_app_or in H as [H | H]].
  - eapply number_second; [| exact H]. unfold repo_table, opt_row. destruct (ar_path x), (ar_type x), (ar_parent x); reflexivity.
  - apply numbered_in in H as (k & y & _ & H). eapply wart_second. exact H.
  - eapply number_second; [| exact H]. reflexivity.
Qed.
Lemma head_second : forall T (c : cstatus T) ws v, In (ws, v) (wstat_head c) -> second ws = "SYSTEM" \/ second ws = "BOOT" \/ second ws = "SLOTS".
Proof.
  intros T c ws v H. unfold wstat_head in H. cbn [In] in H. repeat (destruct H as [H | H]; [injection H as <- <-; auto |]). contradiction.
Qed.

(** the output is the list of assignments *)
Lemma status_text : forall T (i : iso T) det c, known c -> exists out, status_shell i det c = Ok out /\ sh_eval out = Some (map unw (wstatus i det c)).
Proof.
  intros T i det c K. pose proof (good_names _ (wstatus_good T i det c)) as G.
  destruct (env_text (map unw (wstatus i det c))) as (b & E1 & E2); [discriminate | exact G |].
  exists (text_of (map unw (wstatus i det c))). split; [| apply eval_text; exact G].
  unfold status_shell. rewrite wstatus_eq by assumption. cbn [bind]. rewrite E1. cbn [bind]. rewrite chomp_sq, <- E2. reflexivity.
Qed.
Lemma status_find : forall T (i : iso T) det c q, wok q = true -> value_of (wname q) (map unw (wstatus i det c)) = wlast q (wstatus i det c).
Proof. intros. apply wlast_eq; [assumption |]. apply good_wok. apply wstatus_good. Qed.

Lemma none_second : forall q l, (forall ws v, In (ws, v) l -> second ws <> second q) -> wlast q l = None.
Proof. intros q l H. apply wlast_none. intros ws v I ->. exact (H _ _ I eq_refl). Qed.

Lemma head_val : forall T (i : iso T) det c q, wok q = true -> second q <> "SLOT" -> second q <> "REPO" -> second q <> "REPOS" ->
  value_of (wname q) (map unw (wstatus i det c)) = wlast q (wstat_head c).
Proof.
  intros T i det c q W N1 N2 N3. rewrite status_find by assumption. unfold wstatus. rewrite !wlast_app.
  rewrite (none_second q [_]) by (intros ws v [H | []]; injection H as <- <-; intro X; apply N3; rewrite <- X; reflexivity).
  rewrite (none_second q (numbered wrepo 1 (c_repos c))) by (intros ws v H; apply numbered_in in H as (k & y & _ & H); apply wrepo_second in H; congruence).
  rewrite (none_second q (numbered (wslot i det) 1 (c_slots c))) by (intros ws v H; apply numbered_in in H as (k & y & _ & H); apply wslot_second in H; congruence).
  reflexivity.
Qed.
Lemma slot_val : forall T (i : iso T) det c q k, stem_ok q = true -> 2 <= List.length q -> second q = "SLOT" ->
  value_of (wname (q ++ [dec k])) (map unw (wstatus i det c))
  = if (k <? 1)%nat then None else match nth_error (c_slots c) (k - 1) with Some s => wlast q (all_table i det s) | None => None end.
Proof.
  intros T i det c q k W L2 N. assert (SQ : second (q ++ [dec k]) = "SLOT") by (unfold second in *; rewrite app_nth1 by lia; exact N).
  rewrite status_find by (apply (stem_good q [dec k] "" W (num1 k))). unfold wstatus. rewrite !wlast_app.
  rewrite (none_second _ [_]) by (intros ws v [H | []]; injection H as <- <-; rewrite SQ; discriminate).
  rewrite (none_second _ (numbered wrepo 1 (c_repos c))) by (intros ws v H; apply numbered_in in H as (j & y & _ & H); apply wrepo_second in H; rewrite H, SQ; discriminate).
  rewrite (numbered_last (wslot i det) 0 _ k) by
    (try (intros j x ws v H; apply wslot_nums in H; rewrite H; reflexivity); rewrite (stem_nums q [dec k] W (num1 k)); reflexivity).
  rewrite (none_second _ (wstat_head c)) by (intros ws v H; apply head_second in H as [H | [H | H]]; rewrite H, SQ; discriminate).
  destruct (k <? 1)%nat; [reflexivity |]. destruct (nth_error (c_slots c) (k - 1)) as [s |]; [| reflexivity].
  unfold wslot. rewrite number_last. destruct (wlast q (all_table i det s)); reflexivity.
Qed.
Lemma repo_val : forall T (i : iso T) det c q r t, wok q = true -> second q = "REPO" -> nums q = dec (S r) :: t ->
  value_of (wname q) (map unw (wstatus i det c)) = match nth_error (c_repos c) r with Some x => wlast q (wrepo (S r) x) | None => None end.
Proof.
  intros T i det c q r t W N M. rewrite status_find by assumption. unfold wstatus. rewrite !wlast_app.
  rewrite (none_second _ [_]) by (intros ws v [H | []]; injection H as <- <-; rewrite N; discriminate).
  rewrite (numbered_last wrepo 0 _ (S r)) by
    (try (intros j x ws v H; apply wrepo_nums in H as (t' & H); rewrite H; reflexivity); rewrite M; reflexivity).
  rewrite (none_second _ (numbered (wslot i det) 1 (c_slots c))) by (intros ws v H; apply numbered_in in H as (j & y & _ & H); apply wslot_second in H; rewrite H, N; discriminate).
  rewrite (none_second _ (wstat_head c)) by (intros ws v H; apply head_second in H as [H | [H | H]]; rewrite H, N; discriminate).
  change (S r <? 1)%nat with false. cbv iota. replace (S r - 1) with r by lia. destruct (nth_error (c_repos c) r) as [x |]; [| reflexivity]. destruct (wlast q (wrepo (S r) x)); reflexivity.
Qed.
(** inside a repository *)
Lemma none_nums : forall q l, (forall ws v, In (ws, v) l -> nums ws <> nums q) -> wlast q l = None.
Proof. intros q l H. apply wlast_none. intros ws v I ->. exact (H _ _ I eq_refl). Qed.
Lemma repo_own : forall q r x, stem_ok q = true -> wlast (q ++ [dec r]) (wrepo r x) = wlast q (repo_table x ++ [(["RAUC"; "REPO"; "ARTIFACTS"], counts (List.length (ar_arts x)))]).
Proof.
  intros q r x W. unfold wrepo. rewrite !wlast_app, !number_last.
  rewrite (none_nums _ (numbered _ _ _)); [cbn [wlast]; destruct (weqb _ q); reflexivity |]. intros ws v H. apply numbered_in in H as (k & y & _ & H). apply wart_nums in H as (t & ->).
  rewrite (stem_nums q [dec r] W (num1 r)). discriminate.
Qed.
Lemma repo_art : forall q r x a t, nums q = dec r :: dec (S a) :: t ->
  wlast q (wrepo r x) = match nth_error (ar_arts x) a with Some y => wlast q (wart (has_par x) r (S a) y) | None => None end.
Proof.
  intros q r x a t M. unfold wrepo. rewrite !wlast_app.
  rewrite (none_nums q (number [dec r] [_])) by (intros ws v H; apply number_nums in H; [rewrite H, M; discriminate | reflexivity | apply num1]).
  rewrite (none_nums q (number [dec r] (repo_table x))) by (intros ws v H; apply number_nums in H; [rewrite H, M; discriminate | apply repo_table_stems | apply num1]).
  rewrite (numbered_last (wart (has_par x) r) 1 _ (S a)) by
    (try (intros j y ws v H; apply wart_nums in H as (t' & H); rewrite H; reflexivity); rewrite M; reflexivity).
  change (S a <? 1)%nat with false. cbv iota. replace (S a - 1) with a by lia. destruct (nth_error (ar_arts x) a) as [y |]; [| reflexivity]. destruct (wlast q (wart _ _ _ _)); reflexivity.
Qed.
Lemma art_own : forall par q r a x, stem_ok q = true -> wlast (q ++ [dec r; dec a]) (wart par r a x)
  = wlast q [(["RAUC"; "REPO"; "ARTIFACT"; "NAME"], aa_name x); (["RAUC"; "REPO"; "ARTIFACT"; "INSTANCES"], counts (List.length (aa_insts x)))].
Proof.
  intros par q r a x W. unfold wart. rewrite !wlast_app, !number_last.
  rewrite (none_nums _ (numbered _ _ _)); [cbn [wlast]; destruct (weqb _ q); reflexivity |]. intros ws v H. apply numbered_in in H as (k & y & _ & H).
  apply number_nums in H; [| apply inst_table_stems | apply num3]. rewrite H, (stem_nums q _ W (num2 r a)). discriminate.
Qed.
Lemma art_inst : forall par q r a x k, stem_ok q = true ->
  wlast (q ++ [dec r; dec a; dec (S k)]) (wart par r a x) = match nth_error (aa_insts x) k with Some y => wlast q (inst_table par y) | None => None end.
Proof.
  intros par q r a x k W. unfold wart. rewrite !wlast_app. assert (M : nums (q ++ [dec r; dec a; dec (S k)]) = [dec r; dec a; dec (S k)]) by (apply stem_nums; [assumption | apply num3]).
  rewrite (none_nums _ (number [dec r; dec a] [_])) by (intros ws v H; apply number_nums in H; [rewrite H, M; discriminate | reflexivity | apply num2]).
  rewrite (none_nums _ (number [dec r; dec a] [_])) by (intros ws v H; apply number_nums in H; [rewrite H, M; discriminate | reflexivity | apply num2]).
  rewrite (numbered_last (winst par r a) 2 _ (S k)) by
    (try (intros j y ws v H; apply number_nums in H; [rewrite H; reflexivity | apply inst_table_stems | apply num3]); rewrite M; reflexivity).
  change (S k <? 1)%nat with false. cbv iota. replace (S k - 1) with k by lia. destruct (nth_error (aa_insts x) k) as [y |]; [| reflexivity]. unfold winst. rewrite number_last. destruct (wlast q (inst_table par y)); reflexivity.
Qed.
