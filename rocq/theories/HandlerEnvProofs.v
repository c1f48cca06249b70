From Verif Require Import Base BaseLemmas Slot Image KeyFile EnvKey EnvKeyProofs Semver Manifest Handlers Install InstallSpec InstallProofs
  ShellOut ShellOutSpec ShellOutProofs HandlerEnv HandlerEnvSpec.

(** ** entries *)
Lemma at_eq_pr : forall k v, no_char "=" k = true -> at_eq (pr k v) = Some (k, v).
Proof.
  unfold pr. induction k as [|c k IH]; intros v H; [reflexivity|]. unfold no_char in *. cbn [all_chars] in H. apply andb_prop in H as [H1 H2].
  cbn [append at_eq]. apply negb_true_iff in H1. rewrite H1. rewrite IH by exact H2. reflexivity.
Qed.
Lemma entry_at_eq : forall k e, no_char "=" k = true -> entry_of k e = match at_eq e with Some (n, _) => String.eqb n k | None => false end.
Proof.
  unfold entry_of. induction k as [|c k IH]; intros e H.
  - destruct e as [|a e]; [reflexivity|]. cbn [append has_prefix at_eq]. rewrite andb_true_r.
    destruct (Ascii.eqb a "=") eqn:E.
    + apply Ascii.eqb_eq in E. subst a. reflexivity.
    + rewrite Ascii.eqb_sym, E. destruct (at_eq e) as [[n v]|]; reflexivity.
  - unfold no_char in H. cbn [all_chars] in H. apply andb_prop in H as [H1 H2]. apply negb_true_iff in H1.
    destruct e as [|a e]; [reflexivity|]. cbn [append has_prefix at_eq].
    destruct (Ascii.eqb a "=") eqn:E.
    + apply Ascii.eqb_eq in E. subst a. rewrite H1. reflexivity.
    + rewrite (IH e H2). destruct (at_eq e) as [[n v]|]; cbn [option_map fst snd].
      * cbn [String.eqb]. rewrite (Ascii.eqb_sym a c). destruct (Ascii.eqb c a); reflexivity.
      * apply andb_false_r.
Qed.
Lemma has_char_no : forall c s, has_char c s = negb (no_char c s).
Proof. reflexivity. Qed.
Lemma setenv_put : forall k v o env, no_char "=" k = true -> setenv k v o env = put k v o env.
Proof. intros k v o env H. unfold setenv. rewrite has_char_no, H. reflexivity. Qed.

Lemma getenv_put : forall q k v o env, a_name k -> a_name q ->
  getenv q (put k v o env) = if String.eqb k q then (if o then Some v else first_of [getenv q env; Some v]) else getenv q env.
Proof.
  intros q k v o env Hk Hq. induction env as [|e env IH].
  - cbn [put getenv]. rewrite at_eq_pr by exact Hk. destruct (String.eqb k q); [destruct o; reflexivity|reflexivity].
  - cbn [put]. rewrite entry_at_eq by exact Hk. destruct (at_eq e) as [[n w]|] eqn:E.
    + destruct (String.eqb_spec n k) as [->|Hn].
      * destruct o; cbn [getenv].
        -- rewrite at_eq_pr by exact Hk. rewrite E. destruct (String.eqb k q); reflexivity.
        -- rewrite E. destruct (String.eqb k q) eqn:Ek; [reflexivity|reflexivity].
      * cbn [getenv]. rewrite E, IH. destruct (String.eqb_spec n q) as [->|Hn2].
        -- destruct (String.eqb_spec k q) as [->|_]; [congruence|reflexivity].
        -- reflexivity.
    + cbn [getenv]. rewrite E, IH. reflexivity.
Qed.
Lemma getenv_setenv : forall q k v o env, a_name k -> a_name q ->
  getenv q (setenv k v o env) = if String.eqb k q then (if o then Some v else first_of [getenv q env; Some v]) else getenv q env.
Proof. intros. rewrite setenv_put by assumption. apply getenv_put; assumption. Qed.

(** lists of assignments *)
Definition set_all (o : bool) (l : list (string * string)) (env : environ) : environ :=
  fold_left (fun env (kv : string * string) => setenv (fst kv) (snd kv) o env) l env.
Definition names (l : list (string * string)) : Prop := Forall (fun kv => a_name (fst kv)) l.
Lemma set_all_app : forall o a b env, set_all o (a ++ b) env = set_all o b (set_all o a env).
Proof. intros. unfold set_all. apply fold_left_app. Qed.
Lemma getenv_over : forall q l env, a_name q -> names l ->
  getenv q (set_all true l env) = first_of [value_of q l; getenv q env].
Proof.
  intros q l. induction l as [|[k v] l IH]; intros env Hq Hl; [cbn; destruct (getenv q env); reflexivity|].
  inversion Hl as [|? ? H1 H2]; subst. cbn [fst] in H1. change (set_all true ((k, v) :: l) env) with (set_all true l (setenv k v true env)).
  rewrite IH by assumption. rewrite getenv_setenv by assumption. cbn [value_of].
  destruct (value_of q l); [reflexivity|]. destruct (String.eqb k q); reflexivity.
Qed.
Lemma getenv_under : forall q l env, a_name q -> names l ->
  getenv q (set_all false l env) = first_of [getenv q env; assoc q l].
Proof.
  intros q l. induction l as [|[k v] l IH]; intros env Hq Hl; [cbn; destruct (getenv q env); reflexivity|].
  inversion Hl as [|? ? H1 H2]; subst. cbn [fst] in H1. change (set_all false ((k, v) :: l) env) with (set_all false l (setenv k v false env)).
  rewrite IH by assumption. rewrite getenv_setenv by assumption. cbn [assoc].
  destruct (String.eqb k q); [|reflexivity]. destruct (getenv q env); reflexivity.
Qed.

(** the meta data strings *)
Lemma env_char_no_eq : forall w, all_chars env_char w = true -> no_char "=" w = true.
Proof. intros w H. eapply all_chars_impl; [| exact H]. intros [[] [] [] [] [] [] [] []] X; try discriminate X; reflexivity. Qed.
Lemma meta_names : forall meta, names (meta_vars meta).
Proof.
  intros meta. apply Forall_forall. intros [k v] H. destruct (c44_vars_ok meta k v H) as (g & kvs & k' & eg & ek & _ & _ & -> & _ & _ & H1 & H2).
  unfold a_name. cbn [fst]. rewrite !no_char_app. rewrite (env_char_no_eq eg H1), (env_char_no_eq ek H2). reflexivity.
Qed.
Lemma strings_ok : forall l o env, names l -> setenv_strings (map (fun kv : string * string => pr (fst kv) (snd kv)) l) o env = Ok (set_all o l env).
Proof.
  intros l o. induction l as [|[k v] l IH]; intros env H; [reflexivity|]. inversion H as [|? ? H1 H2]; subst. cbn [fst] in H1.
  cbn [map setenv_strings fst snd]. rewrite at_eq_pr by exact H1. rewrite IH by exact H2. reflexivity.
Qed.

(** ** numbers *)
Lemma dec_num : forall n, dec n = num n.
Proof. reflexivity. Qed.
Lemma dec_no_eq : forall n, no_char "=" (dec n) = true.
Proof.
  intro n. eapply all_chars_impl; [|apply dec_chars]. intros [[] [] [] [] [] [] [] []] X; try discriminate X; reflexivity.
Qed.
Lemma dec_len : forall n, (0 <? String.length (dec n))%nat = true.
Proof.
  intro n. destruct (dec n) eqn:E; [|reflexivity]. exfalso. revert E. apply print_num_nonempty.
Qed.
Lemma join_snoc : forall sep l x, l <> [] -> join sep (l ++ [x]) = (join sep l ++ sep ++ x)%string.
Proof.
  intros sep l x. induction l as [|a [|b l] IH]; intros H; [congruence|reflexivity|].
  change ((a :: b :: l) ++ [x]) with (a :: (b :: l) ++ [x]).
  change (join sep (a :: (b :: l) ++ [x])) with (a ++ sep ++ join sep ((b :: l) ++ [x]))%string.
  rewrite IH by discriminate. change (join sep (a :: b :: l)) with (a ++ sep ++ join sep (b :: l))%string.
  rewrite !app_assoc_s. reflexivity.
Qed.
Lemma add_number_ok : forall l n, add_number (words (map num l)) n = words (map num (l ++ [n])).
Proof.
  intros l n. unfold add_number, words. rewrite map_app. cbn [map]. destruct l as [|a l]; [reflexivity|].
  rewrite join_snoc by discriminate.
  assert (E : (0 <? String.length (join " " (map num (a :: l))))%nat = true).
  { cbn [map]. destruct (map num l) as [|b r].
    - apply dec_len.
    - change (join " " (num a :: b :: r)) with (num a ++ " " ++ join " " (b :: r))%string. rewrite length_app_s.
      pose proof (dec_len a) as H. rewrite dec_num in H. apply Nat.ltb_lt in H. apply Nat.ltb_lt. lia. }
  rewrite E. rewrite app_assoc_s. reflexivity.
Qed.

(** ** target slots *)
Lemma flat_map_only : forall (f : string -> list slot) l a, NoDup l -> In a l -> (forall c, In c l -> c <> a -> f c = []) -> flat_map f l = f a.
Proof.
  intros f l a. induction l as [|b l IH]; intros Hn Hi Hf; [destruct Hi|]. inversion Hn as [|? ? Hb Hl]; subst. cbn [flat_map].
  destruct Hi as [->|Hi].
  - assert (E : flat_map f l = []).
    { clear -Hf Hb. assert (G : forall c, In c l -> f c = []) by (intros c Hc; apply Hf; [right; exact Hc|intros ->; exact (Hb Hc)]).
      clear Hf Hb. induction l as [|c l IH]; [reflexivity|]. cbn [flat_map]. rewrite (G c (or_introl eq_refl)), IH by (intros d Hd; apply G; right; exact Hd). reflexivity. }
    rewrite E. apply app_nil_r.
  - rewrite IH by (auto; intros c Hc; apply Hf; right; exact Hc). rewrite Hf; [reflexivity|left; reflexivity|intros ->; exact (Hb Hi)].
Qed.
Lemma filter_flat_map : forall (g : slot -> bool) (f : string -> list slot) l, filter g (flat_map f l) = flat_map (fun c => filter g (f c)) l.
Proof.
  intros g f l. induction l as [|c l IH]; [reflexivity|]. cbn [flat_map]. rewrite filter_app, IH. reflexivity.
Qed.
Lemma unique_eq : forall slots s t, unique_names slots -> In s slots -> In t slots -> sl_name s = sl_name t -> s = t.
Proof.
  intros slots s t. unfold unique_names. induction slots as [|a l IH]; intros Hu Hs Ht E; [destruct Hs|]. cbn [map] in Hu.
  inversion Hu as [|? ? H1 H2]; subst. destruct Hs as [->|Hs], Ht as [->|Ht]; [reflexivity| | |auto].
  - exfalso. apply H1. rewrite E. apply in_map. exact Ht.
  - exfalso. apply H1. rewrite <- E. apply in_map. exact Hs.
Qed.
Lemma members_of : forall slots tg s, unique_names slots -> wf_group slots tg -> In s slots ->
  filter (same_slot s) (members tg slots) = if is_target tg s then [s] else [].
Proof.
  intros slots tg s Hu Hw Hs. unfold members. rewrite filter_flat_map.
  rewrite (flat_map_only _ _ (sl_class s)).
  - unfold is_target. destruct (tg (sl_class s)) as [t|] eqn:E; [|reflexivity]. cbn [filter]. unfold same_slot.
    destruct (String.eqb_spec (sl_name s) (sl_name t)) as [En|_]; [|reflexivity].
    destruct (Hw _ _ E) as [Ht _]. rewrite (unique_eq slots s t Hu Hs Ht En). reflexivity.
  - apply NoDup_nodup.
  - apply nodup_In. apply in_map. exact Hs.
  - intros c _ Hc. destruct (tg c) as [t|] eqn:E; [|reflexivity]. cbn [filter]. unfold same_slot.
    destruct (String.eqb_spec (sl_name s) (sl_name t)) as [En|_]; [|reflexivity].
    destruct (Hw _ _ E) as [Ht Hcl]. rewrite <- (unique_eq slots s t Hu Hs Ht En) in Hcl. congruence.
Qed.
Lemma member_fold : forall imgs s l v, fold_left (member_step imgs s) l v =
  fold_left (member_step imgs s) (filter (same_slot s) l) v.
Proof.
  intros imgs s l. induction l as [|m l IH]; intros v; [reflexivity|]. cbn [fold_left filter]. destruct (same_slot s m) eqn:E.
  - cbn [fold_left]. apply IH.
  - assert (Hv : member_step imgs s v m = v) by (unfold member_step; rewrite E; reflexivity). rewrite Hv. apply IH.
Qed.

(** ** the loop *)
Definition rows (tg : target_group) (imgs : list image) (i : nat) (s : slot) : list (string * string) :=
  (if is_target tg s then match first_image imgs (sl_class s) with Some img => image_rows i img | None => [] end else []) ++ slot_rows i s.
Lemma image_env_ok : forall i cls imgs env, image_env i cls imgs env =
  set_all true (match first_image imgs cls with Some img => image_rows i img | None => [] end) env.
Proof.
  intros i cls imgs env. unfold image_env, first_image.
  assert (E : find (fun i0 => String.eqb cls (im_class i0)) imgs = find (fun i0 => String.eqb (im_class i0) cls) imgs).
  { induction imgs as [|a l IH]; [reflexivity|]. cbn [find]. rewrite String.eqb_sym. destruct (String.eqb (im_class a) cls); [reflexivity|exact IH]. }
  rewrite E. clear E. destruct (find (fun i0 => String.eqb (im_class i0) cls) imgs); reflexivity.
Qed.
Lemma slot_env_ok : forall i s env, slot_env i s env = set_all true (slot_rows i s) env.
Proof. reflexivity. Qed.
Lemma slot_step_ok : forall slots tg imgs s v ns ts, unique_names slots -> wf_group slots tg -> In s slots ->
  lv_slots v = words (map num ns) -> lv_targets v = words (map num ts) ->
  slot_step imgs (members tg slots) v s =
  mkLvars (S (lv_cnt v)) (words (map num (ns ++ [S (lv_cnt v)])))
    (words (map num (ts ++ if is_target tg s then [S (lv_cnt v)] else [])))
    (set_all true (rows tg imgs (S (lv_cnt v)) s) (lv_env v)).
Proof.
  intros slots tg imgs s v ns ts Hu Hw Hs H1 H2. unfold slot_step. rewrite member_fold. rewrite (members_of slots tg s Hu Hw Hs).
  rewrite H1, H2, add_number_ok. unfold rows. destruct (is_target tg s) eqn:E.
  - cbn [fold_left]. unfold member_step. unfold same_slot. rewrite String.eqb_refl. cbn [negb lv_cnt lv_slots lv_targets lv_env].
    rewrite add_number_ok. rewrite image_env_ok, slot_env_ok, set_all_app. reflexivity.
  - cbn [fold_left lv_cnt lv_slots lv_targets lv_env]. rewrite slot_env_ok. rewrite app_nil_r. reflexivity.
Qed.
Lemma loop_ok : forall slots tg imgs, unique_names slots -> wf_group slots tg -> forall l, incl l slots -> forall v ns ts,
  lv_slots v = words (map num ns) -> lv_targets v = words (map num ts) ->
  let w := fold_left (slot_step imgs (members tg slots)) l v in
  lv_slots w = words (map num (ns ++ seq (S (lv_cnt v)) (List.length l))) /\
  lv_targets w = words (map num (ts ++ target_numbers tg (S (lv_cnt v)) l)) /\
  lv_env w = set_all true (numbered (rows tg imgs) (S (lv_cnt v)) l) (lv_env v).
Proof.
  intros slots tg imgs Hu Hw l. induction l as [|s l IH]; intros Hi v ns ts H1 H2.
  - cbn. rewrite !app_nil_r. auto.
  - cbn [fold_left]. rewrite (slot_step_ok slots tg imgs s v ns ts Hu Hw (Hi s (or_introl eq_refl)) H1 H2).
    specialize (IH (fun x Hx => Hi x (or_intror Hx))
      (mkLvars (S (lv_cnt v)) (words (map num (ns ++ [S (lv_cnt v)])))
        (words (map num (ts ++ if is_target tg s then [S (lv_cnt v)] else []))) (set_all true (rows tg imgs (S (lv_cnt v)) s) (lv_env v)))
      (ns ++ [S (lv_cnt v)]) (ts ++ if is_target tg s then [S (lv_cnt v)] else []) eq_refl eq_refl).
    cbn [lv_cnt lv_env] in IH. destruct IH as (I1 & I2 & I3). cbv zeta. rewrite I1, I2, I3.
    cbn [List.length seq target_numbers numbered]. rewrite <- !app_assoc. cbn [app]. rewrite set_all_app. auto.
Qed.

Lemma rows_names : forall tg imgs l c, names (numbered (rows tg imgs) c l).
Proof.
  intros tg imgs l. induction l as [|s l IH]; intros c; [constructor|]. cbn [numbered]. apply Forall_app. split; [|apply IH].
  assert (G : forall p n, no_char "=" p = true -> a_name (p ++ num n)%string).
  { intros p n H. unfold a_name. rewrite no_char_app, H. apply dec_no_eq. }
  unfold rows. apply Forall_app. split.
  - destruct (is_target tg s); [|constructor]. destruct (first_image imgs (sl_class s)); [|constructor].
    unfold image_rows. repeat constructor; cbn [fst]; apply G; reflexivity.
  - unfold slot_rows. repeat constructor; cbn [fst]; apply G; reflexivity.
Qed.

(** ** the whole environment *)
Lemma value_of_app : forall q a b, value_of q (a ++ b) = first_of [value_of q b; value_of q a].
Proof.
  intros q a b. induction a as [|[k v] a IH]; cbn [app value_of].
  - destruct (value_of q b); reflexivity.
  - rewrite IH. cbn [first_of]. destruct (value_of q b); [reflexivity|]. destruct (value_of q a); [reflexivity|]. destruct (String.eqb k q); reflexivity.
Qed.
Lemma env_ok : forall c base source m transaction slots tg,
  unique_names slots -> wf_group slots tg -> (forall k v, In (k, v) (hx_sysinfo c) -> a_name k) ->
  exists env, prepare_environment c base source m transaction slots tg = Ok env /\
    forall q, a_name q -> getenv q env =
      first_of [value_of q (told c source m transaction slots tg); getenv q base; assoc q (hx_sysinfo c); assoc q (meta_vars (mf_meta m))].
Proof.
  intros c base source m transaction slots tg Hu Hw Hs. unfold prepare_environment, meta_strings.
  set (e0 := setenv "RAUC_TRANSACTION_ID" _ true _).
  assert (E0 : e0 = set_all true (bundle_rows source transaction) (set_all false (hx_sysinfo c) (set_all true (system_rows c) base))) by reflexivity.
  clearbody e0.
  pose proof (loop_ok slots tg (mf_images m) Hu Hw slots (fun x H => H) (mkLvars 0 "" "" e0) [] [] eq_refl eq_refl) as L.
  cbv zeta in L. destruct L as (L1 & L2 & L3). set (v := fold_left _ slots _) in *. cbn [lv_cnt lv_env app] in L1, L2, L3.
  cbv zeta. rewrite L1, L2, L3. rewrite strings_ok by apply meta_names. eexists. split; [reflexivity|]. intros q Hq.
  rewrite getenv_under by (auto using meta_names).
  assert (Hsi : names (hx_sysinfo c)) by (apply Forall_forall; intros [k w] Hk; exact (Hs k w Hk)).
  assert (Hsys : names (system_rows c)) by (repeat constructor).
  assert (Hbun : names (bundle_rows source transaction)) by (repeat constructor).
  assert (Hlst : names (list_rows tg slots)) by (repeat constructor).
  change (setenv "RAUC_TARGET_SLOTS" ?b true (setenv "RAUC_SLOTS" ?a true ?e)) with (set_all true [("RAUC_SLOTS", a); ("RAUC_TARGET_SLOTS", b)] e).
  change [("RAUC_SLOTS", words (map num (seq 1 (List.length slots)))); ("RAUC_TARGET_SLOTS", words (map num (target_numbers tg 1 slots)))]
    with (list_rows tg slots).
  rewrite getenv_over by assumption. rewrite getenv_over by (auto using rows_names). rewrite E0.
  rewrite getenv_over by assumption. rewrite getenv_under by assumption. rewrite getenv_over by assumption.
  unfold told. rewrite !value_of_app. change (numbered (rows tg (mf_images m)) 1 slots) with
    (numbered (fun i s => (if is_target tg s then match first_image (mf_images m) (sl_class s) with Some img => image_rows i img | None => [] end else []) ++ slot_rows i s) 1 slots).
  cbn [first_of]. destruct (value_of q (list_rows tg slots)); [reflexivity|].
  destruct (value_of q (numbered _ 1 slots)); [reflexivity|]. destruct (value_of q (bundle_rows source transaction)); [reflexivity|].
  destruct (value_of q (system_rows c)); [reflexivity|]. destruct (getenv q base); [reflexivity|]. destruct (assoc q (hx_sysinfo c)); reflexivity.
Qed.
