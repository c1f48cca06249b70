From Verif Require Import Base BaseLemmas Slot Efi EfiSpec UbootProofs.
From Coq Require Permutation.

Lemma by_num_some es n e : by_num es n = Some e -> In e es /\ fst e = n.
Proof. unfold by_num. intros H. apply find_some in H as [H1 H2]. apply String.eqb_eq in H2. auto. Qed.

Lemma by_num_in es e : NoDup (map fst es) -> In e es -> by_num es (fst e) = Some e.
Proof.
  unfold by_num. induction es as [|x es IH]; intros Hnd Hin; [destruct Hin|].
  cbn in Hnd. inversion Hnd as [|? ? Hx Hr]; subst. cbn [find].
  destruct Hin as [->|Hin].
  - now rewrite String.eqb_refl.
  - destruct (String.eqb_spec (fst e) (fst x)) as [He|_]; [|auto].
    exfalso. apply Hx. rewrite <- He. now apply in_map.
Qed.

Lemma by_name_some es b e : by_name es b = Some e -> In e es /\ snd e = b.
Proof. unfold by_name. intros H. apply find_some in H as [H1 H2]. apply String.eqb_eq in H2. auto. Qed.

Lemma map_flat_map {A B C} (g : B -> C) (f : A -> list B) l :
  map g (flat_map f l) = flat_map (fun x => map g (f x)) l.
Proof. induction l as [|a l IH]; [reflexivity|]. cbn. now rewrite map_app, IH. Qed.

Lemma order_names_info st i : efi_bootorder_get st = Ok i ->
  map snd (in_order i) = order_names st /\ option_map snd (in_next i) = next_name st /\
  in_all i = ef_entries st /\ (forall e, In e (in_order i) -> In e (ef_entries st)) /\
  ef_entries st <> [] /\ ef_order st <> [].
Proof.
  unfold efi_bootorder_get, order_names, next_name.
  destruct (ef_entries st) as [|x es] eqn:Ee; [discriminate|].
  destruct (ef_order st) as [|n ord] eqn:Eo; [discriminate|].
  intros H. apply Ok_inj in H. subst i. cbn [in_order in_next in_all].
  assert (Hm : forall l, map snd (flat_map (fun n => match by_num (x :: es) n with Some e => [e] | None => [] end) l)
     = flat_map (fun n => match by_num (x :: es) n with Some e => [snd e] | None => [] end) l).
  { intros l. rewrite map_flat_map. apply flat_map_ext. intros m. destruct (by_num (x :: es) m); reflexivity. }
  split; [apply Hm|]. split; [destruct (ef_next st); reflexivity|]. split; [reflexivity|].
  split; [|split; discriminate].
  intros e He. apply in_flat_map in He as (m & _ & He).
  destruct (by_num (x :: es) m) eqn:E; [|destruct He]. destruct He as [<-|[]].
  now apply by_num_some in E.
Qed.

Lemma first_slot_spec es slots s : efi_first_slot es slots = Some s ->
  In s slots /\ exists pre b post, map snd es = pre ++ b :: post /\ sl_bootname s = Some b /\
     forall n, In n pre -> forall t, In t slots -> sl_bootname t <> Some n.
Proof.
  induction es as [|e r IH]; cbn [efi_first_slot]; [discriminate|].
  destruct (find (bootname_is (snd e)) slots) as [t|] eqn:Ef; intros H.
  - inversion H; subst t. apply find_some in Ef as [H1 H2]. unfold bootname_is in H2.
    destruct (sl_bootname s) as [b|] eqn:Eb; [|discriminate]. apply String.eqb_eq in H2. split; [assumption|].
    exists [], b, (map snd r). cbn. rewrite H2. repeat split; auto.
  - destruct (IH H) as (H1 & pre & b & post & H2 & H3 & H4). split; [assumption|].
    exists (snd e :: pre), b, post. cbn. rewrite H2. repeat split; auto.
    intros n [<-|Hn] t Ht Hb; [|eapply H4; eauto].
    pose proof (find_none _ _ Ef _ Ht) as Hno. unfold bootname_is in Hno. rewrite Hb in Hno.
    now rewrite String.eqb_refl in Hno.
Qed.

(** get_primary is the first name in the firmware's boot sequence that is a slot *)
Lemma efi_get_primary_ok : forall st slots s,
  efi_get_primary st slots = Ok s ->
  In s slots /\ exists pre b post, boot_sequence st = pre ++ b :: post /\ sl_bootname s = Some b /\
     forall n, In n pre -> forall t, In t slots -> sl_bootname t <> Some n.
Proof.
  intros st slots s H. unfold efi_get_primary in H.
  destruct (efi_bootorder_get st) as [i| |] eqn:Ei; cbn [bind] in H; try discriminate.
  destruct (order_names_info st i Ei) as (Ho & Hn & _).
  assert (Hs : boot_sequence st =
    map snd (match in_next i with Some e => e :: in_order i | None => in_order i end)).
  { unfold boot_sequence. rewrite <- Hn, <- Ho. destruct (in_next i); reflexivity. }
  destruct (efi_first_slot _ slots) as [t|] eqn:Ef; [|discriminate]. inversion H; subst t.
  rewrite Hs. now apply first_slot_spec.
Qed.

Lemma find_bootname slots s b : unique_names slots -> unique_bootnames slots -> In s slots -> sl_bootname s = Some b ->
  find (bootname_is b) slots = Some s.
Proof.
  intros Hun Hub Hin Hb. destruct (find (bootname_is b) slots) as [t|] eqn:Ef.
  - apply find_some in Ef as [H1 H2]. unfold bootname_is in H2. destruct (sl_bootname t) as [c|] eqn:Et; [|discriminate].
    apply String.eqb_eq in H2; subst c. f_equal. eapply unique_slot; eauto.
  - pose proof (find_none _ _ Ef _ Hin) as Hno. unfold bootname_is in Hno. rewrite Hb, String.eqb_refl in Hno. discriminate.
Qed.

(** prepare *)
Lemma prepare_spec st b create st1 i : efi_wf st ->
  (forall st', create = Some st' -> created st b st') ->
  efi_prepare st b create = Ok (st1, i) ->
  efi_bootorder_get st1 = Ok i /\ efi_wf st1 /\ by_name (in_all i) b <> None /\
  order_names st1 = order_names st /\ ef_next st1 = ef_next st /\ next_name st1 = next_name st \/
  efi_bootorder_get st1 = Ok i /\ efi_wf st1 /\ by_name (in_all i) b <> None /\ ef_next st1 = ef_next st /\
  (exists n, ef_entries st1 = ef_entries st ++ [(n, b)] /\ ~ In n (map fst (ef_entries st)) /\ ef_order st1 = ef_order st).
Proof.
  intros Hwf Hc H. unfold efi_prepare in H.
  destruct (efi_bootorder_get st) as [i0| |] eqn:Ei; cbn [bind] in H; try discriminate.
  destruct (by_name (in_all i0) b) eqn:En.
  - inversion H; subst. left. rewrite En. repeat split; auto; discriminate.
  - destruct create as [st'|]; [|discriminate]. specialize (Hc st' eq_refl).
    destruct (efi_bootorder_get st') as [i'| |] eqn:Ei'; cbn [bind] in H; try discriminate.
    inversion H; subst; clear H. right. destruct Hc as (n & Hn & He & Ho & Hx & _).
    destruct (order_names_info _ _ Ei') as (_ & _ & Ha & _).
    repeat split; auto.
    + unfold efi_wf in *. rewrite He, map_app.
      apply (Permutation.Permutation_NoDup (l := n :: map fst (ef_entries st))).
      * apply (Permutation.Permutation_cons_append (map fst (ef_entries st)) n).
      * now constructor.
    + rewrite Ha, He. unfold by_name. destruct (find (fun e => String.eqb (snd e) b) (ef_entries st ++ [(n, b)])) eqn:Ef; [discriminate|].
      pose proof (find_none _ _ Ef (n, b)) as Hno. cbn in Hno. rewrite String.eqb_refl in Hno.
      intros _. assert (true = false) by (apply Hno; apply in_or_app; right; now left). discriminate.
    + eauto.
Qed.

Lemma find_app {A} (p : A -> bool) l m :
  find p (l ++ m) = match find p l with Some x => Some x | None => find p m end.
Proof. induction l as [|a l IH]; cbn; [reflexivity|]. destruct (p a); auto. Qed.

Lemma by_num_found es n : In n (map fst es) -> by_num es n <> None.
Proof.
  intros H. apply in_map_iff in H as (e & <- & He). unfold by_num.
  destruct (find (fun x => String.eqb (fst e) (fst x)) es) eqn:Ef; [discriminate|].
  pose proof (find_none _ _ Ef _ He) as Hno. cbn in Hno. rewrite String.eqb_refl in Hno. discriminate.
Qed.

Lemma prepare_names st b create st1 i : efi_wf st -> no_stale st ->
  (forall st', create = Some st' -> created st b st') ->
  efi_prepare st b create = Ok (st1, i) ->
  efi_bootorder_get st1 = Ok i /\ efi_wf st1 /\ by_name (in_all i) b <> None /\
  order_names st1 = order_names st /\ ef_next st1 = ef_next st /\ next_name st1 = next_name st.
Proof.
  intros Hwf (Hs1 & Hs2) Hc H.
  destruct (prepare_spec st b create st1 i Hwf Hc H) as [?|(H1 & H2 & H3 & H4 & n & He & Hn & Ho)]; [assumption|].
  repeat split; auto.
  - unfold order_names. rewrite Ho, He. clear - Hs1.
    assert (Hg : forall l, (forall m, In m l -> In m (map fst (ef_entries st))) ->
       flat_map (fun n0 => match find (fun e => String.eqb n0 (fst e)) (ef_entries st ++ [(n, b)]) with
                     | Some e => [snd e] | None => [] end) l =
       flat_map (fun n0 => match find (fun e => String.eqb n0 (fst e)) (ef_entries st) with
                     | Some e => [snd e] | None => [] end) l).
    { induction l as [|m l IH]; intros Hl; [reflexivity|]. cbn [flat_map]. rewrite IH by (intros; apply Hl; now right).
      f_equal. rewrite find_app. specialize (Hl m (or_introl eq_refl)). apply by_num_found in Hl. unfold by_num in Hl.
      destruct (find (fun e => String.eqb m (fst e)) (ef_entries st)) eqn:Ef; [reflexivity|exfalso; now apply Hl]. }
    now apply Hg.
  - unfold next_name. rewrite H4, He. destruct (ef_next st) as [m|] eqn:En; [|reflexivity].
    rewrite find_app. specialize (Hs2 m eq_refl). apply by_num_found in Hs2. unfold by_num in Hs2.
    destruct (find (fun e => String.eqb m (fst e)) (ef_entries st)) eqn:Ef; [reflexivity|exfalso; now apply Hs2].
Qed.

Lemma order_names_of_entries es l nx cur : NoDup (map fst es) -> (forall e, In e l -> In e es) ->
  order_names (mkEfi es (map fst l) nx cur) = map snd l.
Proof.
  intros Hnd Hin. unfold order_names. cbn [ef_entries ef_order].
  induction l as [|e l IH]; [reflexivity|]. cbn [map flat_map].
  change (find (fun x => String.eqb (fst e) (fst x)) es) with (by_num es (fst e)).
  rewrite by_num_in by (auto; apply Hin; now left). cbn. f_equal. apply IH. intros x Hx. apply Hin. now right.
Qed.

Lemma remove_first_in es b e : In e (remove_first es b) -> In e es.
Proof.
  induction es as [|x es IH]; cbn; [tauto|]. destruct (String.eqb (snd x) b); [auto|].
  intros [->|H]; auto.
Qed.

Lemma remove_first_names es b : map snd (remove_first es b) = remove_name (map snd es) b.
Proof. induction es as [|e es IH]; cbn; [reflexivity|]. destruct (String.eqb (snd e) b); cbn; congruence. Qed.

Lemma remove_name_filter l b : NoDup l -> remove_name l b = filter (fun x => negb (String.eqb x b)) l.
Proof.
  induction 1 as [|x l Hx Hl IH]; cbn; [reflexivity|].
  destruct (String.eqb_spec x b) as [->|Hn]; cbn; [|now rewrite IH].
  symmetry. apply filter_all. apply Forall_forall. intros y Hy. apply negb_true_iff, String.eqb_neq. congruence.
Qed.

(** *** final statements *)
Lemma efi_set_primary_next_ok : forall st slots s b create st',
  efi_wf st -> no_stale st -> unique_names slots -> unique_bootnames slots -> In s slots -> sl_bootname s = Some b ->
  (forall c, create = Some c -> created st b c) ->
  efi_set_primary true st b create = Ok st' ->
  efi_get_primary st' slots = Ok s /\ boot_sequence st' = b :: order_names st /\ order_names st' = order_names st.
Proof.
  intros st slots s b create st' Hwf Hns Hun Hub Hin Hb Hc H.
  unfold efi_set_primary, efi_set_temp_primary in H.
  destruct (efi_prepare st b create) as [[st1 i]| |] eqn:Ep; cbn [bind] in H; try discriminate.
  destruct (prepare_names _ _ _ _ _ Hwf Hns Hc Ep) as (Hget & Hwf1 & Hbn & Hon & Hnx & _).
  destruct (order_names_info _ _ Hget) as (Hord & _ & Hall & Hsub & Hne1 & Hne2).
  destruct (by_name (in_all i) b) as [e|] eqn:Ee; [|congruence]. inversion H; subst st'; clear H.
  apply by_name_some in Ee as [Ee1 Ee2]. rewrite Hall in Ee1.
  set (st' := mkEfi _ _ _ _).
  assert (Ho' : order_names st' = order_names st) by (rewrite <- Hon; reflexivity).
  assert (Hn' : next_name st' = Some b).
  { unfold next_name, st'. cbn [ef_next ef_entries].
    change (find (fun x => String.eqb (fst e) (fst x)) (ef_entries st1)) with (by_num (ef_entries st1) (fst e)).
    rewrite by_num_in by auto. cbn. now rewrite Ee2. }
  split; [|split; [unfold boot_sequence; now rewrite Hn', Ho'|assumption]].
  unfold efi_get_primary.
  destruct (efi_bootorder_get st') as [i'| |] eqn:Ei'.
  2,3: (unfold efi_bootorder_get, st' in Ei'; cbn [ef_entries ef_order] in Ei';
        destruct (ef_entries st1); [congruence|]; destruct (ef_order st1); [congruence|discriminate]).
  cbn [bind]. destruct (order_names_info _ _ Ei') as (_ & Hx & _). rewrite Hn' in Hx.
  destruct (in_next i') as [x|]; [|discriminate]. cbn in Hx. inversion Hx as [Hx2].
  cbn [efi_first_slot]. rewrite Hx2. now rewrite (find_bootname slots s b).
Qed.

Lemma efi_set_primary_order_ok : forall st slots s b create st',
  efi_wf st -> no_stale st -> unique_names slots -> unique_bootnames slots -> In s slots -> sl_bootname s = Some b ->
  (forall c, create = Some c -> created st b c) ->
  efi_set_primary false st b create = Ok st' ->
  order_names st' = b :: remove_name (order_names st) b /\
  next_name st' = next_name st /\
  efi_get_state st' b = Ok true /\
  (next_name st = None -> efi_get_primary st' slots = Ok s).
Proof.
  intros st slots s b create st' Hwf Hns Hun Hub Hin Hb Hc H.
  unfold efi_set_primary, efi_modify_order in H.
  destruct (efi_prepare st b create) as [[st1 i]| |] eqn:Ep; cbn [bind] in H; try discriminate.
  destruct (prepare_names _ _ _ _ _ Hwf Hns Hc Ep) as (Hget & Hwf1 & Hbn & Hon & Hnx & Hnn).
  destruct (order_names_info _ _ Hget) as (Hord & _ & Hall & Hsub & Hne1 & Hne2).
  destruct (by_name (in_all i) b) as [e|] eqn:Ee; [|congruence]. inversion H; subst st'; clear H.
  apply by_name_some in Ee as [Ee1 Ee2]. rewrite Hall in Ee1.
  set (st' := mkEfi _ _ _ _).
  assert (Ho' : order_names st' = b :: remove_name (order_names st) b).
  { unfold st'. change (fst e :: map fst (remove_first (in_order i) b))
      with (map fst (e :: remove_first (in_order i) b)).
    rewrite order_names_of_entries; auto.
    - cbn [map]. now rewrite Ee2, remove_first_names, Hord, Hon.
    - intros x [<-|Hx]; [assumption|]. apply Hsub. eapply remove_first_in; eauto. }
  assert (Hn' : next_name st' = next_name st) by (rewrite <- Hnn; reflexivity).
  destruct (efi_bootorder_get st') as [i'| |] eqn:Ei'.
  2,3: (unfold efi_bootorder_get, st' in Ei'; cbn [ef_entries ef_order] in Ei';
        destruct (ef_entries st1); [congruence|discriminate]).
  destruct (order_names_info _ _ Ei') as (Hord' & Hx & _).
  split; [assumption|]. split; [assumption|]. split.
  - unfold efi_get_state. rewrite Ei'. cbn [bind]. f_equal. apply existsb_exists.
    rewrite Ho' in Hord'. destruct (in_order i') as [|x l]; [discriminate|]. cbn in Hord'. inversion Hord'.
    exists x. split; [now left|]. subst. apply String.eqb_refl.
  - intros Hnone. unfold efi_get_primary. rewrite Ei'. cbn [bind].
    rewrite Hn', Hnone in Hx. destruct (in_next i'); [discriminate|].
    rewrite Ho' in Hord'. destruct (in_order i') as [|x l]; [discriminate|]. cbn in Hord'. inversion Hord' as [[Hx1 Hx2]].
    cbn [efi_first_slot]. rewrite (find_bootname slots s (snd x)); auto. now rewrite Hx1.
Qed.

Lemma efi_set_state_ok : forall st b good create st',
  efi_wf st -> no_stale st ->
  (forall c, create = Some c -> created st b c) ->
  efi_set_state st b good create = Ok st' ->
  order_names st' = (if good then [b] else []) ++ remove_name (order_names st) b /\
  next_name st' = next_name st.
Proof.
  intros st b good create st' Hwf Hns Hc H. unfold efi_set_state, efi_modify_order in H.
  destruct (efi_prepare st b create) as [[st1 i]| |] eqn:Ep; cbn [bind] in H; try discriminate.
  destruct (prepare_names _ _ _ _ _ Hwf Hns Hc Ep) as (Hget & Hwf1 & Hbn & Hon & Hnx & Hnn).
  destruct (order_names_info _ _ Hget) as (Hord & _ & Hall & Hsub & Hne1 & Hne2).
  destruct good.
  - destruct (by_name (in_all i) b) as [e|] eqn:Ee; [|congruence]. inversion H; subst st'; clear H.
    apply by_name_some in Ee as [Ee1 Ee2]. rewrite Hall in Ee1. split; [|rewrite <- Hnn; reflexivity].
    change (fst e :: map fst (remove_first (in_order i) b)) with (map fst (e :: remove_first (in_order i) b)).
    cbn [app]. rewrite order_names_of_entries; auto.
    + cbn [map]. now rewrite Ee2, remove_first_names, Hord, Hon.
    + intros x [<-|Hx]; [assumption|]. apply Hsub. eapply remove_first_in; eauto.
  - inversion H; subst st'; clear H. split; [|rewrite <- Hnn; reflexivity].
    cbn [app]. rewrite order_names_of_entries; auto.
    + now rewrite remove_first_names, Hord, Hon.
    + intros x Hx. apply Hsub. eapply remove_first_in; eauto.
Qed.

(** with unique names in BootOrder and no BootNext, a slot marked bad is gone *)
Lemma efi_mark_bad_ok : forall st slots b create st',
  efi_wf st -> no_stale st -> NoDup (order_names st) -> next_name st <> Some b ->
  (forall c, create = Some c -> created st b c) ->
  efi_set_state st b false create = Ok st' ->
  order_names st' = filter (fun x => negb (String.eqb x b)) (order_names st) /\
  next_name st' = next_name st /\
  ~ In b (boot_sequence st') /\
  efi_get_state st' b <> Ok true /\
  (forall t, efi_get_primary st' slots = Ok t -> sl_bootname t <> Some b).
Proof.
  intros st slots b create st' Hwf Hns Hnd Hnx Hc H.
  destruct (efi_set_state_ok _ _ _ _ _ Hwf Hns Hc H) as [Ho Hn]. cbn [app] in Ho.
  rewrite remove_name_filter in Ho by assumption.
  assert (Hnotin : ~ In b (boot_sequence st')).
  { unfold boot_sequence. rewrite Hn, Ho.
    assert (Hf : ~ In b (filter (fun x => negb (String.eqb x b)) (order_names st))).
    { intros Hi. apply filter_In in Hi as [_ Hi]. now rewrite String.eqb_refl in Hi. }
    destruct (next_name st) as [n|]; [|assumption]. intros [->|Hi]; [congruence|contradiction]. }
  split; [assumption|]. split; [assumption|]. split; [assumption|]. split.
  - unfold efi_get_state. destruct (efi_bootorder_get st') as [i| |] eqn:Ei; cbn [bind]; try discriminate.
    destruct (order_names_info _ _ Ei) as (Hord & _). intros Hx. inversion Hx as [Hx2].
    apply existsb_exists in Hx2 as (e & He & Heq). apply String.eqb_eq in Heq. apply Hnotin.
    unfold boot_sequence. assert (In b (order_names st')) by (rewrite <- Hord, Heq; now apply in_map).
    destruct (next_name st'); [now right|assumption].
  - intros t Ht. apply efi_get_primary_ok in Ht as (_ & pre & c & post & Hs & Hcb & _). intros Hb.
    apply Hnotin. rewrite Hs. apply in_or_app. right. left. congruence.
Qed.

(** refutations *)
Definition ex_efi_next : efi :=
  mkEfi [("0000", "A"); ("0001", "B")] ["0000"; "0001"] (Some "0001") (Some "0000").
Definition ex_efi_dup : efi :=
  mkEfi [("0000", "A"); ("0001", "B"); ("0002", "B")] ["0000"; "0001"; "0002"] None (Some "0000").

Lemma efi_mark_bad_next_refuted :
  exists st slots s b st', efi_wf st /\ no_stale st /\ NoDup (order_names st) /\
    sl_bootname s = Some b /\ efi_set_state st b false None = Ok st' /\
    efi_get_state st' b = Ok false /\ efi_get_primary st' slots = Ok s /\ hd_error (boot_sequence st') = Some b.
Proof.
  exists ex_efi_next, [mkSlot "rootfs.1" "rootfs" "/dev/b" "ext4" (Some "B") None false true],
    (mkSlot "rootfs.1" "rootfs" "/dev/b" "ext4" (Some "B") None false true), "B".
  eexists. split; [repeat constructor; cbn; intuition discriminate|].
  split. { split; cbn; intros n; [tauto|]. intros H; inversion H; subst; tauto. }
  split; [repeat constructor; cbn; intuition discriminate|].
  repeat split; reflexivity.
Qed.

Lemma efi_mark_bad_dup_refuted :
  exists st b st', efi_wf st /\ no_stale st /\ next_name st = None /\
    efi_set_state st b false None = Ok st' /\ efi_get_state st' b = Ok true.
Proof.
  exists ex_efi_dup, "B". eexists.
  split; [repeat constructor; cbn; intuition discriminate|].
  split. { split; cbn; intros n; [intuition|discriminate]. }
  repeat split; reflexivity.
Qed.

Lemma efi_current_crash_refuted :
  exists st slots, efi_wf st /\ no_stale st /\ efi_get_current_bootname st slots = Abort.
Proof.
  exists (mkEfi [("0000", "A")] ["0000"] None None), [mkSlot "rootfs.0" "rootfs" "/dev/a" "ext4" (Some "A") None false true].
  split; [repeat constructor; cbn; intuition discriminate|].
  split. { split; cbn; intros n; [intuition|discriminate]. }
  reflexivity.
Qed.

(** After the last entry was taken out of BootOrder, nothing works any more: neither marking good nor activating. *)
Lemma efi_empty_order_refuted :
  exists st b st', efi_wf st /\ no_stale st /\ efi_set_state st b false None = Ok st' /\
    forall c g create ub, efi_set_state st' c g create = Err /\ efi_set_primary ub st' c create = Err /\ efi_get_state st' c = Err.
Proof.
  exists (mkEfi [("0000", "A"); ("0001", "B")] ["0000"] None (Some "0000")), "A". eexists.
  split; [repeat constructor; cbn; intuition discriminate|].
  split. { split; cbn; intros n; [tauto|discriminate]. }
  split; [reflexivity|]. intros c g create ub. repeat split; try reflexivity. destruct ub; reflexivity.
Qed.
