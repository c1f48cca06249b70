From Verif Require Import Base BaseLemmas Slot Install Mark MarkSpec.

Lemma unique_names_inj slots a b : unique_names slots -> In a slots -> In b slots -> sl_name a = sl_name b -> a = b.
Proof.
  unfold unique_names. induction slots as [|x xs IH]; cbn [map]; intros Hu Ha Hb He; [destruct Ha|].
  inversion Hu as [|? ? Hx Hxs]; subst. destruct Ha as [->|Ha], Hb as [->|Hb]; auto.
  - exfalso. apply Hx. rewrite He. apply in_map. exact Hb.
  - exfalso. apply Hx. rewrite <- He. apply in_map. exact Ha.
Qed.

Lemma state_eqb_spec a b : state_eqb a b = true <-> a = b.
Proof. destruct a, b; cbn; split; congruence. Qed.

Lemma booted_slot_some st slots b : booted_slot st slots = Some b -> booted st slots b.
Proof.
  intros H. apply find_some in H. destruct H as [H1 H2]. split; [exact H1|].
  apply state_eqb_spec; exact H2.
Qed.

Lemma booted_slot_none st slots b : booted_slot st slots = None -> ~ booted st slots b.
Proof.
  intros H [H1 H2]. pose proof (find_none _ _ H _ H1) as H3. cbn in H3.
  rewrite H2 in H3. discriminate.
Qed.

Lemma is_other_spec b s : is_other b s = true <->
  sl_class s = sl_class b /\ sl_parent s = None /\ sl_bootname s <> None /\ sl_name s <> sl_name b.
Proof.
  unfold is_other, same_slot. rewrite !andb_true_iff, negb_true_iff, String.eqb_eq, String.eqb_neq.
  destruct (sl_parent s), (sl_bootname s); split; intros H; intuition congruence.
Qed.

Lemma get_slots_ok st slots id l :
  unique_names slots -> one_booted st slots ->
  get_slots_by_identifier st slots id = Ok l ->
  l <> [] /\ forall s, In s l <-> meant st slots id s.
Proof.
  intros Hu Hb. unfold get_slots_by_identifier.
  destruct (String.eqb_spec id "booted") as [->|N1].
  { destruct (booted_slot st slots) as [b|] eqn:E; [|discriminate].
    intros H. apply Ok_inj in H. subst l. split; [discriminate|].
    apply booted_slot_some in E. intros s. cbn [In]. unfold meant. split.
    - intros [<-|[]]. left. auto.
    - intros [[_ H]|[[H _]|[H _]]]; [left; apply Hb; assumption|discriminate|congruence]. }
  destruct (String.eqb_spec id "other") as [->|N2].
  { destruct (booted_slot st slots) as [b|] eqn:E; [|discriminate].
    apply booted_slot_some in E.
    destruct (filter (is_other b) slots) as [|x xs] eqn:F; [discriminate|].
    intros H. apply Ok_inj in H. subst l. split; [discriminate|].
    rewrite <- F. intros s. rewrite filter_In, is_other_spec. unfold meant. split.
    - intros (Hi & H1 & H2 & H3 & H4). right. left. repeat split; auto. exists b. auto.
    - intros [[H _]|[(_ & Hi & H2 & H3 & b' & Hb' & H1 & H4)|[_ [H _]]]]; [discriminate| |congruence].
      rewrite (Hb b b' E Hb'). auto. }
  destruct (Nat.eqb _ _); [|discriminate].
  destruct (find _ slots) as [s|] eqn:F; [|discriminate].
  destruct (sl_bootname s) as [bn|] eqn:Bn; [|discriminate].
  intros H. apply Ok_inj in H. subst l. split; [discriminate|].
  apply find_some in F. destruct F as [F1 F2]. apply String.eqb_eq in F2.
  intros t. cbn [In]. unfold meant. split.
  - intros [<-|[]]. right. right. repeat split; auto. congruence.
  - intros [[H _]|[[H _]|(_ & _ & Hi & Hn & _)]]; [congruence|congruence|]. left.
    apply (unique_names_inj slots); auto. congruence.
Qed.

Lemma get_slots_err st slots id :
  get_slots_by_identifier st slots id = Err ->
  List.length (g_strsplit "." id) = 2%nat \/ id = "booted" \/ id = "other" ->
  unique_names slots -> one_booted st slots ->
  forall s, ~ meant st slots id s.
Proof.
  intros H Hid Hu Hb s Hm. unfold get_slots_by_identifier in H.
  destruct (String.eqb_spec id "booted") as [E1|N1].
  { clear Hid; subst id. destruct (booted_slot st slots) eqn:E; [discriminate|].
    destruct Hm as [[_ Hm]|[[Hm _]|[Hm _]]]; [|discriminate|congruence].
    eapply booted_slot_none; eauto. }
  destruct (String.eqb_spec id "other") as [E2|N2].
  { clear Hid; subst id. destruct Hm as [[Hm _]|[(_ & Hi & H2 & H3 & b & Hbt & H1 & H4)|[_ [Hm _]]]]; [discriminate| |congruence].
    destruct (booted_slot st slots) as [b'|] eqn:E.
    - assert (b' = b) by (apply Hb; auto using booted_slot_some). subst b'.
      destruct (filter (is_other b) slots) eqn:F; [|discriminate].
      assert (In s (filter (is_other b) slots)) by (apply filter_In; split; auto; apply is_other_spec; auto).
      rewrite F in H0. exact H0.
    - eapply booted_slot_none; eauto. }
  assert (Hl : List.length (g_strsplit "." id) = 2%nat) by intuition congruence.
  rewrite Hl in H. cbn [Nat.eqb] in H.
  destruct Hm as [[Hm _]|[[Hm _]|(_ & _ & Hi & Hn & Hbn)]]; [congruence|congruence|].
  destruct (find _ slots) as [t|] eqn:F.
  - apply find_some in F. destruct F as [F1 F2]. apply String.eqb_eq in F2.
    assert (t = s) by (apply (unique_names_inj slots); auto; congruence). subst t.
    destruct (sl_bootname s); [discriminate|congruence].
  - pose proof (find_none _ _ F _ Hi) as Hx. cbn in Hx. apply String.eqb_neq in Hx. congruence.
Qed.

Lemma get_slots_not_abort st slots id : get_slots_by_identifier st slots id <> Abort.
Proof.
  unfold get_slots_by_identifier.
  destruct (String.eqb _ _); [destruct (booted_slot _ _); discriminate|].
  destruct (String.eqb _ _).
  { destruct (booted_slot _ _); [|discriminate]. destruct (filter _ _); discriminate. }
  destruct (Nat.eqb _ _); [|discriminate]. destruct (find _ _) as [s|]; [|discriminate].
  destruct (sl_bootname s); discriminate.
Qed.

Lemma mark_bad_loop_spec ok l : forall tr b tr', mark_bad_loop ok tr l = (b, tr') ->
  exists n, tr' = tr ++ firstn n (map (fun s => OpState s false) l) /\
    (b = true -> tr' = tr ++ map (fun s => OpState s false) l).
Proof.
  induction l as [|s r IH]; cbn [mark_bad_loop map]; intros tr b tr' H.
  - inversion H; subst. exists 0%nat. cbn. rewrite app_nil_r. auto.
  - destruct (ok tr (OpState s false)).
    + destruct (IH _ _ _ H) as (n & H1 & H2). exists (S n). cbn [firstn].
      rewrite <- app_assoc in H1, H2. auto.
    + inversion H; subst. exists 1%nat. cbn. split; [reflexivity|discriminate].
Qed.

Lemma mark_run_bad_spec ok st slots id tr r tr' :
  unique_names slots -> one_booted st slots ->
  mark_run_bad ok st slots id tr = (r, tr') ->
  r <> Abort /\
  exists ops, tr' = tr ++ ops /\
   (forall o, In o ops -> exists s, o = OpState s false /\ meant st slots id s) /\
   (forall l, r = Ok l -> ops = map (fun s => OpState s false) l /\ l <> [] /\ forall s, In s l <-> meant st slots id s).
Proof.
  intros Hu Hb. unfold mark_run_bad.
  destruct (get_slots_by_identifier st slots id) as [l| |] eqn:E.
  - destruct (get_slots_ok _ _ _ _ Hu Hb E) as [Hn Hm].
    destruct (mark_bad_loop ok tr l) as [b t] eqn:L. intros H.
    assert (r = if b then Ok l else Err) by congruence. assert (t = tr') by congruence. subst r t. clear H.
    split; [destruct b; discriminate|].
    destruct (mark_bad_loop_spec _ _ _ _ _ L) as (n & H1 & H2).
    exists (firstn n (map (fun s => OpState s false) l)). split; [exact H1|]. split.
    + intros o Ho. assert (Ho' : In o (map (fun s => OpState s false) l)).
      { rewrite <- (firstn_skipn n). apply in_or_app. auto. }
      apply in_map_iff in Ho'. destruct Ho' as (s & <- & Hs). exists s. split; auto. apply Hm; exact Hs.
    + intros l' Hl. destruct b; [|discriminate]. apply Ok_inj in Hl. subst l'.
      split; [|auto]. specialize (H2 eq_refl). rewrite H1 in H2. apply app_inv_head in H2. exact H2.
  - intros H. assert (r = Err) by congruence. assert (tr' = tr) by congruence. subst. split; [discriminate|].
    exists []. rewrite app_nil_r. split; [reflexivity|]. split; [intros o []|discriminate].
  - exfalso. exact (get_slots_not_abort _ _ _ E).
Qed.

Lemma c14_ok : forall ok plf st slots state id r ops,
  unique_names slots -> one_booted st slots ->
  mark_run ok plf st slots state id = (r, ops) ->
  (* never crashes *)
  r <> Abort /\
  (* every boot loader access concerns a slot that was meant (or is the documented late fallback prevention) *)
  (forall o, In o ops ->
     (meant st slots id (op_slot o) /\
        o = (if String.eqb state "active" then OpPrimary (op_slot o)
             else OpState (op_slot o) (String.eqb state "good")) /\
        (state = "good" \/ state = "bad" \/ state = "active")) \/
     (plf = true /\ state = "good" /\ id = "booted" /\
        o = OpState (op_slot o) false /\ meant st slots "other" (op_slot o))) /\
  (* a success reports and touches all of them *)
  (forall l, r = Ok l ->
     (forall s, In s l <-> meant st slots id s) /\ l <> [] /\
     (forall s, In s l -> In (if String.eqb state "active" then OpPrimary s
                              else OpState s (String.eqb state "good")) ops) /\
     (plf = true -> state = "good" -> id = "booted" ->
        forall s, meant st slots "other" s -> In (OpState s false) ops)).
Proof.
  intros ok plf st slots state id r ops Hu Hb. unfold mark_run.
  destruct (String.eqb_spec state "bad") as [->|Nb].
  { intros H. destruct (mark_run_bad_spec _ _ _ _ _ _ _ Hu Hb H) as (Ha & o' & Ho & H1 & H2).
    cbn [app] in Ho. subst o'. split; [exact Ha|]. split.
    - intros o Ho. destruct (H1 o Ho) as (s & -> & Hs). left. cbn [op_slot]. split; [exact Hs|].
      split; [reflexivity|auto].
    - intros l Hl. destruct (H2 l Hl) as (-> & Hn & Hm). repeat split; auto; try apply Hm.
      + intros s Hs. change (String.eqb "bad" "active") with false. change (String.eqb "bad" "good") with false.
        cbn iota. apply in_map_iff. eauto.
      + intros _ Hx. discriminate. }
  destruct (get_slots_by_identifier st slots id) as [l| |] eqn:E.
  2:{ intros H; inversion H; subst. split; [discriminate|]. split; [intros o []|discriminate]. }
  2:{ exfalso. exact (get_slots_not_abort _ _ _ E). }
  destruct (get_slots_ok _ _ _ _ Hu Hb E) as [Hn Hm].
  destruct (String.eqb_spec state "good") as [->|Ng].
  { destruct (Nat.ltb 1 (List.length l)) eqn:L.
    { intros H; inversion H; subst. split; [discriminate|]. split; [intros o []|discriminate]. }
    destruct l as [|s l']; [congruence|]. destruct l' as [|]; [|cbn in L; discriminate].
    destruct (ok [] (OpState s true)); cbn [negb].
    2:{ intros H; inversion H; subst. split; [discriminate|]. split; [|discriminate].
        intros o [<-|[]]. left. cbn. split; [apply Hm; left; reflexivity|auto]. }
    destruct (plf && String.eqb id "booted") eqn:P.
    - apply andb_true_iff in P. destruct P as [-> P]. apply String.eqb_eq in P. subst id.
      destruct (mark_run_bad ok st slots "other" [OpState s true]) as [r' tr'] eqn:M.
      destruct (mark_run_bad_spec _ _ _ _ _ _ _ Hu Hb M) as (Ha & o' & -> & H1 & H2).
      assert (Hops : forall o, In o ([OpState s true] ++ o') ->
        meant st slots "booted" (op_slot o) /\ o = (if String.eqb "good" "active" then OpPrimary (op_slot o)
             else OpState (op_slot o) (String.eqb "good" "good")) /\
        ("good" = "good" \/ "good" = "bad" \/ "good" = "active") \/
        true = true /\ "good" = "good" /\ "booted" = "booted" /\
        o = OpState (op_slot o) false /\ meant st slots "other" (op_slot o)).
      { intros o [<-|Ho].
        - left. cbn. split; [apply Hm; left; reflexivity|auto].
        - right. destruct (H1 o Ho) as (t & -> & Ht). cbn. auto. }
      destruct r' as [l2| |]; intros H; [| |congruence].
      + assert (ops = [OpState s true] ++ o') by congruence.
        assert (r = Ok [s]) by congruence. subst r ops. clear H.
        split; [discriminate|]. split; [exact Hops|].
        intros l0 Hl. apply Ok_inj in Hl. subst l0. repeat split; auto; try apply Hm.
        * intros t [<-|[]]. left. reflexivity.
        * intros _ _ _ t Ht. right. destruct (H2 l2 eq_refl) as (-> & _ & Hm2).
          apply in_map_iff. exists t. split; auto. apply Hm2; exact Ht.
      + assert (ops = [OpState s true] ++ o') by congruence.
        assert (r = Err) by congruence. subst r ops. clear H.
        split; [discriminate|]. split; [exact Hops|discriminate].
    - intros H; inversion H; subst. split; [discriminate|]. split.
      + intros o [<-|[]]. left. cbn. split; [apply Hm; left; reflexivity|auto].
      + intros l0 Hl. apply Ok_inj in Hl. subst l0. repeat split; auto; try apply Hm.
        * intros t [<-|[]]. left. reflexivity.
        * intros -> _ ->. discriminate. }
  destruct (String.eqb_spec state "active") as [->|Na].
  { destruct (Nat.ltb 1 (List.length l)) eqn:L.
    { intros H; inversion H; subst. split; [discriminate|]. split; [intros o []|discriminate]. }
    destruct l as [|s l']; [congruence|]. destruct l' as [|]; [|cbn in L; discriminate].
    destruct (ok [] (OpPrimary s)); intros H; inversion H; subst; split; try discriminate; split; try discriminate.
    - intros o [<-|[]]. left. cbn. split; [apply Hm; left; reflexivity|auto].
    - intros l0 Hl. apply Ok_inj in Hl. subst l0. repeat split; auto; try apply Hm.
      + intros t [<-|[]]. left. reflexivity.
      + intros _ Hx; discriminate.
    - intros o [<-|[]]. left. cbn. split; [apply Hm; left; reflexivity|auto]. }
  intros H; inversion H; subst. split; [discriminate|]. split; [intros o []|discriminate].
Qed.

(** ambiguous requests are refused without touching the boot loader *)
Lemma c14_ambiguous_ok : forall ok plf st slots state id a b,
  unique_names slots -> one_booted st slots ->
  state = "good" \/ state = "active" ->
  meant st slots id a -> meant st slots id b -> a <> b ->
  mark_run ok plf st slots state id = (Err, []).
Proof.
  intros ok plf st slots state id a b Hu Hb Hs Ha Hbm Hab. unfold mark_run.
  assert (String.eqb state "bad" = false) as -> by (destruct Hs as [->| ->]; reflexivity).
  destruct (get_slots_by_identifier st slots id) as [l| |] eqn:E; [|reflexivity|].
  2:{ exfalso. exact (get_slots_not_abort _ _ _ E). }
  destruct (get_slots_ok _ _ _ _ Hu Hb E) as [_ Hm].
  apply Hm in Ha, Hbm.
  assert (L : Nat.ltb 1 (List.length l) = true).
  { apply Nat.ltb_lt. destruct l as [|x [|y l]]; cbn in *; try lia; intuition congruence. }
  rewrite L. destruct (String.eqb state "good"); [reflexivity|].
  destruct (String.eqb state "active"); reflexivity.
Qed.

(** nothing meant: refused without touching the boot loader *)
Lemma c14_unknown_ok : forall ok plf st slots state id,
  unique_names slots -> one_booted st slots ->
  (forall s, ~ meant st slots id s) ->
  mark_run ok plf st slots state id = (Err, []).
Proof.
  intros ok plf st slots state id Hu Hb Hno. unfold mark_run, mark_run_bad.
  destruct (get_slots_by_identifier st slots id) as [l| |] eqn:E.
  - destruct (get_slots_ok _ _ _ _ Hu Hb E) as [Hn Hm].
    destruct l as [|s l]; [congruence|]. exfalso. apply (Hno s). apply Hm. left; reflexivity.
  - destruct (String.eqb state "bad"); reflexivity.
  - exfalso. exact (get_slots_not_abort _ _ _ E).
Qed.

(** unambiguous requests reach the boot loader (given a dotted slot name, as parse_slots enforces) *)
Lemma c14_complete_ok : forall ok st slots state id s,
  unique_names slots -> one_booted st slots ->
  state = "good" \/ state = "bad" \/ state = "active" ->
  (id = "booted" \/ id = "other" \/ List.length (g_strsplit "." id) = 2%nat) ->
  meant st slots id s -> (forall t, meant st slots id t -> t = s) ->
  (forall tr o, ok tr o = true) ->
  exists l, fst (mark_run ok false st slots state id) = Ok l /\ In s l.
Proof.
  intros ok st slots state id s Hu Hb Hs Hid Hm Huniq Hok. unfold mark_run, mark_run_bad.
  destruct (get_slots_by_identifier st slots id) as [l| |] eqn:E.
  2:{ exfalso. eapply get_slots_err; eauto. intuition. }
  2:{ exfalso. exact (get_slots_not_abort _ _ _ E). }
  destruct (get_slots_ok _ _ _ _ Hu Hb E) as [Hn Hml].
  assert (Hin : In s l) by (apply Hml; exact Hm).
  assert (Hbad : forall tr, fst (mark_bad_loop ok tr l) = true).
  { clear - Hok. induction l as [|x xs IH]; intros tr; cbn [mark_bad_loop]; [reflexivity|].
    rewrite Hok. apply IH. }
  destruct (String.eqb_spec state "bad") as [->|Nb].
  { destruct (mark_bad_loop ok [] l) as [b tr] eqn:L. specialize (Hbad []). rewrite L in Hbad. cbn in Hbad.
    subst b. exists l. auto. }
  assert (L : Nat.ltb 1 (List.length l) = false).
  { apply Nat.ltb_ge. destruct l as [|x [|y l]]; cbn; try lia. exfalso.
    unfold get_slots_by_identifier in E.
    destruct (String.eqb id "booted"). { destruct (booted_slot _ _); [|discriminate]. apply Ok_inj in E. discriminate. }
    destruct (String.eqb id "other").
    2:{ destruct (Nat.eqb _ _); [|discriminate]. destruct (find _ _); [|discriminate].
        destruct (sl_bootname s0); [|discriminate]. apply Ok_inj in E. discriminate. }
    destruct (booted_slot st slots) as [b|]; [|discriminate].
    destruct (filter (is_other b) slots) as [|x' l'] eqn:F; [discriminate|]. apply Ok_inj in E. 
    rewrite E in F. 
    assert (ND : NoDup (filter (is_other b) slots)).
    { apply NoDup_filter. apply (NoDup_map_inv sl_name). exact Hu. }
    rewrite F in ND. inversion ND; subst. apply H1.
    assert (x = s) by (apply Huniq, Hml; left; reflexivity).
    assert (y = s) by (apply Huniq, Hml; right; left; reflexivity). subst. left. congruence. }
  rewrite L. destruct l as [|x l]; [congruence|]. rewrite !Hok. cbn [negb andb].
  destruct Hs as [->|[->| ->]]; cbn; eauto. congruence.
Qed.
