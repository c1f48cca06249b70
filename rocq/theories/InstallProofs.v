From Verif Require Import Base BaseLemmas Slot Image Handlers Install InstallSpec.
From Coq Require Import Permutation.

Lemma find_name slots s : unique_names slots -> In s slots ->
  find (fun t => String.eqb (sl_name t) (sl_name s)) slots = Some s.
Proof.
  unfold unique_names. induction slots as [|a l IH]; cbn; [tauto|]. intros Hnd Hin. inversion Hnd; subst.
  destruct (String.eqb_spec (sl_name a) (sl_name s)) as [He|Hne].
  - destruct Hin as [->|Hin]; [reflexivity|]. exfalso. apply H1. rewrite He. now apply in_map.
  - destruct Hin as [->|Hin]; [congruence|]. now apply IH.
Qed.

Lemma same_name_eq slots s t : unique_names slots -> In s slots -> In t slots -> sl_name s = sl_name t -> s = t.
Proof.
  intros Hu Hs Ht He. pose proof (find_name slots s Hu Hs) as H1. pose proof (find_name slots t Hu Ht) as H2.
  rewrite He in H1. congruence.
Qed.

(** *** parents *)
Lemma parent_root_root n slots s : sl_parent s = None -> parent_root n slots s = s.
Proof. destruct n; cbn; [reflexivity|]. now intros ->. Qed.

Lemma parent_root_group slots s n : unique_names slots -> wf_parents slots -> In s slots -> n <> 0 ->
  group_root slots s (parent_root n slots s).
Proof.
  intros Hu Hwf Hin Hn. unfold group_root. destruct n as [|n]; [congruence|]. cbn [parent_root].
  destruct (sl_parent s) as [p|] eqn:Ep; [|auto].
  destruct (Hwf s p Hin Ep) as (r & Hr & Hrn & Hrp). subst p. rewrite (find_name slots r Hu Hr).
  rewrite parent_root_root by assumption. auto.
Qed.

(** *** target selection *)
Lemma select_loop_some per_slot st info cls slots best s :
  select_loop per_slot st info cls slots best = Some s ->
  (In s slots /\ st (sl_name s) = ST_INACTIVE /\ sl_class s = cls) \/ best = Some s.
Proof.
  revert best. induction slots as [|a l IH]; intros best; cbn [select_loop]; [auto|].
  destruct (state_eqb (st (sl_name a)) ST_INACTIVE) eqn:Es; cbn [negb].
  2:{ intros H. apply IH in H as [(H1 & H2)|H]; [left; split; [now right|assumption]|auto]. }
  destruct (String.eqb_spec (sl_class a) cls) as [Hc|Hc]; cbn [negb].
  2:{ intros H. apply IH in H as [(H1 & H2)|H]; [left; split; [now right|assumption]|auto]. }
  assert (Ha : st (sl_name a) = ST_INACTIVE) by (destruct (st (sl_name a)); [discriminate|reflexivity|discriminate]).
  assert (Hstep : forall b, select_loop per_slot st info cls l b = Some s -> b = Some a \/ b = best ->
     (In s (a :: l) /\ st (sl_name s) = ST_INACTIVE /\ sl_class s = cls) \/ best = Some s).
  { intros b H Hb. apply IH in H as [(H1 & H2)|H]; [left; split; [now right|assumption]|].
    destruct Hb as [->| ->]; [|auto]. inversion H; subst. left. split; [now left|auto]. }
  assert (Hself : Some a = Some s -> (In s (a :: l) /\ st (sl_name s) = ST_INACTIVE /\ sl_class s = cls) \/ best = Some s).
  { intros H. inversion H; subst. left. split; [now left|auto]. }
  destruct per_slot; [exact Hself|].
  destruct (opt_is (ss_status (info (sl_name a))) "failed"); [exact Hself|].
  destruct (ss_installed (info (sl_name a))) as [t|]; [|exact Hself].
  destruct best as [b|]; [|intros H; eapply Hstep; eauto].
  destruct (ss_installed (info (sl_name b))) as [t'|]; [destruct (t <? t')%Z|]; intros H; eapply Hstep; eauto.
Qed.

(** the selection policy *)
Definition candidate (st : states) (cls : string) (s : slot) : bool :=
  state_eqb (st (sl_name s)) ST_INACTIVE && String.eqb (sl_class s) cls.

Lemma select_per_slot st info cls slots best :
  select_loop true st info cls slots best =
  match find (candidate st cls) slots with Some s => Some s | None => best end.
Proof.
  induction slots as [|a l IH]; cbn [select_loop find]; [reflexivity|]. unfold candidate at 1.
  destruct (state_eqb (st (sl_name a)) ST_INACTIVE); cbn [negb andb]; [|exact IH].
  destruct (String.eqb (sl_class a) cls); cbn [negb]; [reflexivity|exact IH].
Qed.

Definition urgent (info : string -> sel_status) (s : slot) : bool :=
  opt_is (ss_status (info (sl_name s))) "failed"
  || match ss_installed (info (sl_name s)) with None => true | _ => false end.

Definition older_eq (info : string -> sel_status) (a b : slot) : Prop :=
  exists t t', ss_installed (info (sl_name a)) = Some t /\ ss_installed (info (sl_name b)) = Some t' /\ (t <= t')%Z.

Lemma select_global st info cls slots best s :
  (forall b, best = Some b -> urgent info b = false) ->
  select_loop false st info cls slots best = Some s ->
  match find (fun x => candidate st cls x && urgent info x) slots with
  | Some u => s = u
  | None => urgent info s = false /\
            (forall x, In x slots -> candidate st cls x = true -> older_eq info s x) /\
            (forall b, best = Some b -> older_eq info s b)
  end.
Proof.
  revert best. induction slots as [|a l IH]; intros best Hb; cbn [select_loop find].
  { intros ->. split; [now apply Hb|]. split; [intros x []|]. intros b H. inversion H; subst b.
    specialize (Hb s eq_refl). unfold urgent in Hb. unfold older_eq.
    destruct (ss_installed (info (sl_name s))) as [t|]; [|apply orb_false_iff in Hb; destruct Hb; discriminate].
    exists t, t. repeat split; lia. }
  unfold candidate at 1.
  destruct (state_eqb (st (sl_name a)) ST_INACTIVE) eqn:Es; cbn [negb andb].
  2:{ intros H. apply IH in H; [|assumption]. destruct (find _ l); [assumption|]. destruct H as (H1 & H2 & H3).
      split; [assumption|]. split; [|assumption]. intros x [<-|Hx] Hc; [|auto].
      unfold candidate in Hc. rewrite Es in Hc. discriminate. }
  destruct (String.eqb (sl_class a) cls) eqn:Ec; cbn [negb andb].
  2:{ intros H. apply IH in H; [|assumption]. destruct (find _ l); [assumption|]. destruct H as (H1 & H2 & H3).
      split; [assumption|]. split; [|assumption]. intros x [<-|Hx] Hc; [|auto].
      unfold candidate in Hc. rewrite Ec, andb_false_r in Hc. discriminate. }
  unfold urgent at 1. destruct (opt_is (ss_status (info (sl_name a))) "failed") eqn:Ef; cbn [orb].
  { intros H. congruence. }
  destruct (ss_installed (info (sl_name a))) as [t|] eqn:Et; [|congruence].
  assert (Hua : urgent info a = false) by (unfold urgent; now rewrite Ef, Et).
  assert (Hgen : forall b', (forall b, b' = Some b -> urgent info b = false) ->
     (forall x, In x (a :: l) -> candidate st cls x = true -> In x l \/ exists b, b' = Some b /\ older_eq info b x) ->
     (forall b, best = Some b -> exists b2, b' = Some b2 /\ older_eq info b2 b) ->
     select_loop false st info cls l b' = Some s ->
     match find (fun x => candidate st cls x && urgent info x) l with
     | Some u => s = u
     | None => urgent info s = false /\
            (forall x, In x (a :: l) -> candidate st cls x = true -> older_eq info s x) /\
            (forall b, best = Some b -> older_eq info s b)
     end).
  { intros b' Hb' Hx Hb2 H. apply IH in H; [|assumption]. destruct (find _ l); [assumption|].
    destruct H as (H1 & H2 & H3). split; [assumption|].
    assert (Htr : forall b x, b' = Some b -> older_eq info b x -> older_eq info s x).
    { intros b x Hbb (t1 & t2 & E1 & E2 & E3). destruct (H3 b Hbb) as (t3 & t4 & E4 & E5 & E6).
      exists t3, t2. rewrite E5 in E1. inversion E1; subst. repeat split; auto; lia. }
    split.
    - intros x Hin Hc. destruct (Hx x Hin Hc) as [Hl|(b & Hbb & Ho)]; eauto.
    - intros b Hbb. destruct (Hb2 b Hbb) as (b2 & Hb3 & Ho). eauto. }
  assert (Hrefl : older_eq info a a) by (exists t, t; repeat split; auto; lia).
  destruct best as [b|].
  - assert (Hub : urgent info b = false) by now apply Hb.
    destruct (ss_installed (info (sl_name b))) as [t'|] eqn:Et'.
    2:{ unfold urgent in Hub. rewrite Et' in Hub. apply orb_false_iff in Hub. destruct Hub; discriminate. }
    destruct (t <? t')%Z eqn:El; apply Hgen.
    + intros x Hx. inversion Hx; now subst.
    + intros x [<-|Hx] _; [right; eauto|now left].
    + intros x Hx. inversion Hx; subst. exists a. split; [reflexivity|]. exists t, t'. repeat split; auto; lia.
    + intros x Hx. inversion Hx; now subst.
    + intros x [<-|Hx] _; [|now left]. right. exists b. split; [reflexivity|]. exists t', t. repeat split; auto; lia.
    + intros x Hx. inversion Hx; subst. exists x. split; [reflexivity|]. exists t', t'. repeat split; auto; lia.
  - apply Hgen.
    + intros x Hx. inversion Hx; now subst.
    + intros x [<-|Hx] _; [right; eauto|now left].
    + discriminate.
Qed.

Lemma select_none per_slot st info cls slots best :
  select_loop per_slot st info cls slots best = None ->
  best = None /\ forall x, In x slots -> candidate st cls x = false.
Proof.
  revert best. induction slots as [|a l IH]; intros best; cbn [select_loop];
    [intros ->; split; [reflexivity|intros x []]|].
  destruct (state_eqb (st (sl_name a)) ST_INACTIVE) eqn:Es; cbn [negb].
  2:{ intros H. apply IH in H as [H1 H2]. split; [assumption|]. intros x [<-|Hx]; [|auto].
      unfold candidate. now rewrite Es. }
  destruct (String.eqb (sl_class a) cls) eqn:Ec; cbn [negb].
  2:{ intros H. apply IH in H as [H1 H2]. split; [assumption|]. intros x [<-|Hx]; [|auto].
      unfold candidate. now rewrite Ec, andb_false_r. }
  destruct per_slot; [discriminate|].
  destruct (opt_is _ _); [discriminate|]. destruct (ss_installed _); [|discriminate].
  destruct best as [b|].
  - destruct (ss_installed _); [destruct (_ <? _)%Z|]; intros H; apply IH in H as [H _]; discriminate.
  - intros H; apply IH in H as [H _]; discriminate.
Qed.

(** *** class lists *)
Lemma replace_first_split x y l : In x l ->
  exists a b, l = a ++ x :: b /\ ~ In x a /\ replace_first x y l = a ++ y :: b.
Proof.
  induction l as [|z l IH]; [intros []|]. intros Hin. cbn. destruct (String.eqb_spec z x) as [->|Hne].
  - exists [], l. auto.
  - destruct Hin as [->|Hin]; [congruence|]. destruct (IH Hin) as (a & b & -> & Ha & ->).
    exists (z :: a), b. repeat split; auto. intros [->|H]; [congruence|auto].
Qed.

Lemma remove_fast_perm x l : In x l -> Permutation l (x :: remove_fast x l).
Proof.
  intros Hin. unfold remove_fast.
  assert (He : existsb (String.eqb x) l = true).
  { apply existsb_exists. exists x. split; [assumption|apply String.eqb_refl]. }
  rewrite He. destruct (replace_first_split x (last l "") l Hin) as (a & b & Hl & Ha & ->).
  destruct b as [|y b'] using rev_ind.
  - rewrite Hl. replace (last (a ++ [x]) "") with x by (now rewrite last_last).
    rewrite removelast_last. apply Permutation_sym, Permutation_cons_append.
  - clear IHb'. replace (last l "") with y.
    2:{ rewrite Hl, app_comm_cons, app_assoc, last_last. reflexivity. }
    replace (a ++ y :: b' ++ [y]) with ((a ++ y :: b') ++ [y]) by (rewrite <- app_assoc; reflexivity).
    rewrite removelast_last, Hl.
    apply Permutation_trans with (a ++ x :: y :: b').
    + apply Permutation_app_head, perm_skip. apply Permutation_sym, Permutation_cons_append.
    + apply Permutation_sym, Permutation_middle.
Qed.

Lemma remove_fast_notin x l : ~ In x l -> remove_fast x l = l.
Proof.
  intros H. unfold remove_fast. destruct (existsb (String.eqb x) l) eqn:E; [|reflexivity].
  apply existsb_exists in E as (y & Hy & He). apply String.eqb_eq in He. now subst.
Qed.

Lemma add_class_spec l c : NoDup l -> NoDup (add_class l c) /\ (forall x, In x (add_class l c) <-> In x l \/ x = c).
Proof.
  intros Hnd. unfold add_class. destruct (in_dec string_dec c l) as [Hin|Hn].
  - pose proof (remove_fast_perm c l Hin) as Hp.
    pose proof (Permutation_NoDup Hp Hnd) as Hnd2. inversion Hnd2; subst.
    split.
    + apply (Permutation_NoDup (l := c :: remove_fast c l)); [apply Permutation_cons_append|assumption].
    + intros x. rewrite in_app_iff. cbn. split.
      * intros [H|[<-|[]]]; [left|now right]. eapply Permutation_in; [apply Permutation_sym, Hp|now right].
      * intros [H| ->]; [|auto]. pose proof (Permutation_in x Hp H) as [->|H']; auto.
  - rewrite remove_fast_notin by assumption. split.
    + apply (Permutation_NoDup (l := c :: l)); [apply Permutation_cons_append|now constructor].
    + intros x. rewrite in_app_iff. cbn. intuition.
Qed.

Lemma add_classes_spec cs l : NoDup l ->
  NoDup (fold_left add_class cs l) /\ (forall x, In x (fold_left add_class cs l) <-> In x l \/ In x cs).
Proof.
  revert l. induction cs as [|c cs IH]; intros l Hnd; cbn [fold_left]; [split; [assumption|cbn; intuition]|].
  destruct (add_class_spec l c Hnd) as [H1 H2]. destruct (IH _ H1) as [H3 H4]. split; [assumption|].
  intros x. rewrite H4, H2. cbn. intuition.
Qed.

Lemma root_classes_spec slots : NoDup (root_classes slots) /\ forall c, In c (root_classes slots) <-> exists s, In s slots /\ sl_parent s = None /\ sl_class s = c.
Proof.
  unfold root_classes. destruct (add_classes_spec (map sl_class (filter (fun s => match sl_parent s with None => true | _ => false end) slots)) [] (NoDup_nil _)) as [H1 H2].
  split; [assumption|]. intros c. rewrite H2, in_map_iff. split.
  - intros [[]|(s & <- & Hs)]. apply filter_In in Hs as [Hs Hp]. exists s. destruct (sl_parent s); [discriminate|auto].
  - intros (s & Hs & Hp & <-). right. exists s. split; [reflexivity|]. apply filter_In. now rewrite Hp.
Qed.

Lemma manifest_classes_spec imgs : NoDup (manifest_classes imgs) /\ forall c, In c (manifest_classes imgs) <-> exists i, In i imgs /\ im_artifact i = None /\ im_class i = c.
Proof.
  unfold manifest_classes. destruct (add_classes_spec (map im_class (filter (fun s => match im_artifact s with None => true | _ => false end) imgs)) [] (NoDup_nil _)) as [H1 H2].
  split; [assumption|]. intros c. rewrite H2, in_map_iff. split.
  - intros [[]|(s & <- & Hs)]. apply filter_In in Hs as [Hs Hp]. exists s. destruct (im_artifact s); [discriminate|auto].
  - intros (s & Hs & Hp & <-). right. exists s. split; [reflexivity|]. apply filter_In. now rewrite Hp.
Qed.

Lemma selected_roots_spec per_slot st info slots r : In r (selected_roots per_slot st info slots) <->
  In (sl_class r) (root_classes slots) /\ select_inactive per_slot st info (sl_class r) slots = Some r.
Proof.
  unfold selected_roots. rewrite in_flat_map. split.
  - intros (c & Hc & Hin). destruct (select_inactive per_slot st info c slots) as [s|] eqn:E; [|destruct Hin].
    destruct Hin as [<-|[]]. pose proof E as E2. unfold select_inactive in E2.
    apply select_loop_some in E2 as [(_ & _ & Hcl)|]; [|discriminate]. now rewrite Hcl.
  - intros [Hc Hs]. exists (sl_class r). split; [assumption|]. rewrite Hs. now left.
Qed.

(** *** the target group *)
Section TG.
  Variable slots0 : list slot.
  Variable sel : list slot.
  Let keep (s : slot) : bool := existsb (same_slot (parent_root (List.length slots0) slots0 s)) sel.
  Let step (tg : target_group) (s : slot) := if keep s then upd tg (sl_class s) (Some s) else tg.

  Lemma tg_fold l tg c s : fold_left step l tg c = Some s ->
    (In s l /\ keep s = true /\ sl_class s = c) \/ tg c = Some s.
  Proof.
    revert tg. induction l as [|a l IH]; intros tg; cbn [fold_left]; [auto|]. intros H.
    apply IH in H as [(H1 & H2)|H]; [left; split; [now right|assumption]|].
    unfold step in H. destruct (keep a) eqn:Ek; [|auto].
    unfold upd in H. destruct (String.eqb_spec (sl_class a) c) as [<-|Hn]; [|auto].
    inversion H; subst. left. repeat split; auto. now left.
  Qed.

  Lemma tg_fold_none l tg c : fold_left step l tg c = None ->
    tg c = None /\ forall s, In s l -> keep s = true -> sl_class s <> c.
  Proof.
    revert tg. induction l as [|a l IH]; intros tg; cbn [fold_left]; [intros H; split; [assumption|intros s []]|].
    intros H. apply IH in H as [H1 H2]. unfold step in H1. destruct (keep a) eqn:Ek.
    - unfold upd in H1. destruct (String.eqb_spec (sl_class a) c) as [<-|Hn]; [discriminate|].
      split; [assumption|]. intros s [<-|Hs] Hk; [congruence|auto].
    - split; [assumption|]. intros s [<-|Hs] Hk; [congruence|auto].
  Qed.
End TG.

Lemma keep_spec slots sel s : unique_names slots -> wf_parents slots -> In s slots ->
  (forall r, In r sel -> In r slots) ->
  existsb (same_slot (parent_root (List.length slots) slots s)) sel = true <->
  exists r, In r sel /\ group_root slots s r.
Proof.
  intros Hu Hwf Hin Hsel.
  assert (Hlen : List.length slots <> 0) by (destruct slots; [destruct Hin|discriminate]).
  pose proof (parent_root_group slots s _ Hu Hwf Hin Hlen) as Hg.
  split.
  - intros H. apply existsb_exists in H as (r & Hr & He). exists r. split; [assumption|].
    apply String.eqb_eq in He.
    assert (Heq : parent_root (List.length slots) slots s = r)
      by (apply (same_name_eq slots); auto; now destruct Hg).
    now rewrite <- Heq.
  - intros (r & Hr & Hgr). apply existsb_exists. exists r. split; [assumption|].
    unfold same_slot. apply String.eqb_eq.
    destruct Hg as (G1 & G2 & G3). destruct Hgr as (R1 & R2 & R3).
    destruct G3 as [[G3 G4]|G3], R3 as [[R3 R4]|R3]; congruence.
Qed.

Lemma target_group_spec per_slot st info slots c s : unique_names slots -> wf_parents slots ->
  determine_target_group per_slot st info slots c = Some s ->
  In s slots /\ sl_class s = c /\ exists r, group_root slots s r /\ st (sl_name r) = ST_INACTIVE /\
            select_inactive per_slot st info (sl_class r) slots = Some r.
Proof.
  intros Hu Hwf H. unfold determine_target_group in H. apply tg_fold in H as [(H1 & H2 & H3)|H]; [|discriminate].
  split; [assumption|]. split; [assumption|].
  assert (Hsel : forall r, In r (selected_roots per_slot st info slots) -> In r slots /\ st (sl_name r) = ST_INACTIVE).
  { intros r Hr. apply selected_roots_spec in Hr as [_ Hr]. unfold select_inactive in Hr.
    apply select_loop_some in Hr as [(? & ? & ?)|]; [auto|discriminate]. }
  apply keep_spec in H2; auto; [|intros r Hr; now apply Hsel].
  destruct H2 as (r & Hr & Hg). exists r. destruct (Hsel r Hr). apply selected_roots_spec in Hr as [_ Hr]. auto.
Qed.

(** completeness: every slot of a selected group has its class in the target group *)
Lemma target_group_complete per_slot st info slots s r : unique_names slots -> wf_parents slots ->
  In s slots -> group_root slots s r ->
  select_inactive per_slot st info (sl_class r) slots = Some r ->
  determine_target_group per_slot st info slots (sl_class s) <> None.
Proof.
  intros Hu Hwf Hin Hg Hsel H. unfold determine_target_group in H. apply tg_fold_none in H as [_ H].
  apply (H s Hin); [|reflexivity]. apply keep_spec; auto.
  - intros x Hx. apply selected_roots_spec in Hx as [_ Hx]. unfold select_inactive in Hx.
    apply select_loop_some in Hx as [(? & ? & ?)|]; [auto|discriminate].
  - exists r. split; [|assumption]. apply selected_roots_spec. split; [|assumption].
    apply root_classes_spec. exists r. destruct Hg as (? & ? & _). auto.
Qed.

(** *** states *)
Lemma states_booted slots booted s : unique_names slots -> In s slots ->
  state_from_booted slots booted (sl_name s) =
    (if String.eqb (sl_name s) (sl_name booted) then ST_BOOTED
     else if opt_is (sl_parent s) (sl_name booted) then ST_ACTIVE else ST_INACTIVE).
Proof.
  intros Hu Hin. unfold state_from_booted. rewrite (find_name slots s Hu Hin). unfold same_slot.
  destruct (String.eqb (sl_name s) (sl_name booted)); [reflexivity|]. destruct (sl_parent s) as [p|]; reflexivity.
Qed.

(** *** plans *)
Lemma match_image_best v cls imgs best :
  match_image v cls imgs best =
  match find (fun i => String.eqb (im_class i) cls && has_variant v i) imgs with
  | Some i => Some i
  | None => match best with
            | Some b => Some b
            | None => find (fun i => String.eqb (im_class i) cls && no_variant i) imgs
            end
  end.
Proof.
  revert best. induction imgs as [|i l IH]; intros best; cbn [match_image find]; [destruct best; reflexivity|].
  destruct (String.eqb (im_class i) cls); cbn [negb andb]; [|apply IH].
  unfold has_variant at 1, no_variant at 1. destruct (im_variant i) as [a|].
  - destruct v as [w|]; [destruct (String.eqb a w); [reflexivity|]|]; rewrite IH; reflexivity.
  - rewrite IH. destruct best; reflexivity.
Qed.

Lemma match_image_for v cls imgs : match_image v cls imgs None = image_for v imgs cls.
Proof. rewrite match_image_best. unfold image_for. destruct (find _ imgs); reflexivity. Qed.

Lemma image_for_in v imgs c i : image_for v imgs c = Some i -> In i imgs /\ im_class i = c.
Proof.
  unfold image_for. destruct (find _ imgs) as [j|] eqn:E1.
  - intros H. inversion H; subst. apply find_some in E1 as [H1 H2]. apply andb_true_iff in H2 as [H2 _].
    apply String.eqb_eq in H2. auto.
  - intros E2. apply find_some in E2 as [H1 H2]. apply andb_true_iff in H2 as [H2 _].
    apply String.eqb_eq in H2. auto.
Qed.

Lemma map_res_ok {A B} (f : A -> res B) l bs : map_res f l = Ok bs -> Forall2 (fun a b => f a = Ok b) l bs.
Proof.
  revert bs. induction l as [|a l IH]; intros bs; cbn.
  - intros H. apply Ok_inj in H. subst. constructor.
  - destruct (f a) as [b| |] eqn:E; cbn; try discriminate.
    destruct (map_res f l) as [bs'| |] eqn:E2; cbn; try discriminate.
    intros H. apply Ok_inj in H. subst. constructor; auto.
Qed.

Lemma map_res_err {A B} (f : A -> res B) l a : In a l -> f a = Err ->
  (forall x, f x <> Abort) -> map_res f l = Err.
Proof.
  intros Hin Ha Hna. induction l as [|x l IH]; [destruct Hin|]. cbn. destruct Hin as [->|Hin].
  - now rewrite Ha.
  - destruct (f x) eqn:E; cbn; [|reflexivity|now apply Hna in E]. now rewrite IH.
Qed.

Lemma plan_class_ok v imgs tg c p : plan_class v imgs tg c = Ok p ->
  exists i s h, p = mkPlan i (TSlot s h) /\ image_for v imgs c = Some i /\ tg c = Some s /\
    sl_readonly s = false /\ get_update_handler i s = Ok h.
Proof.
  unfold plan_class. rewrite match_image_for. destruct (image_for v imgs c) as [i|] eqn:Ei; [|discriminate].
  destruct (image_for_in _ _ _ _ Ei) as [_ Hc]. rewrite Hc.
  destruct (tg c) as [s|] eqn:Es; [|discriminate]. destruct (sl_readonly s) eqn:Er; [discriminate|].
  destruct (get_update_handler i s) as [h| |] eqn:Eh; cbn; try discriminate.
  intros H. apply Ok_inj in H. subst. exists i, s, h. auto.
Qed.

Lemma plan_class_no_abort v imgs tg c : plan_class v imgs tg c <> Abort.
Proof.
  unfold plan_class. destruct (match_image _ _ _ _); [|discriminate]. destruct (tg _); [|discriminate].
  destruct (sl_readonly _); [discriminate|]. unfold get_update_handler.
  destruct (im_install _); cbn [bind]; [discriminate|]. destruct (im_type _) as [ty|]; cbn [bind]; [|discriminate].
  destruct (get_handler_from_type ty (sl_type _)); discriminate.
Qed.

Lemma make_plans_ok v imgs tg repos aok ps : make_plans v imgs tg repos aok = Ok ps ->
  exists sp ap, ps = sp ++ ap /\
    Forall2 (fun c p => plan_class v imgs tg c = Ok p) (manifest_classes imgs) sp /\
    Forall2 (fun i p => plan_artifact repos i = Ok p) (filter is_artifact imgs) ap.
Proof.
  unfold make_plans. destruct (map_res (plan_class v imgs tg) _) as [sp| |] eqn:E1; cbn [bind]; try discriminate.
  destruct aok; cbn [negb]; [|discriminate].
  change (fun i : image => match im_artifact i with Some _ => true | None => false end) with is_artifact.
  destruct (map_res (plan_artifact repos) _) as [ap| |] eqn:E2; cbn [bind]; try discriminate.
  intros H. exists sp, ap. split; [destruct (sp ++ ap); [discriminate|now apply Ok_inj in H]|].
  split; now apply map_res_ok.
Qed.

Lemma Forall2_in_r {A B} (R : A -> B -> Prop) l m b : Forall2 R l m -> In b m -> exists a, In a l /\ R a b.
Proof.
  induction 1 as [|x y l m H HF IH]; [intros []|]. intros [<-|Hb]; [exists x; cbn; auto|].
  destruct (IH Hb) as (a & Ha & HR). exists a. cbn; auto.
Qed.
Lemma Forall2_in_l {A B} (R : A -> B -> Prop) l m a : Forall2 R l m -> In a l -> exists b, In b m /\ R a b.
Proof.
  induction 1 as [|x y l m H HF IH]; [intros []|]. intros [<-|Ha]; [exists y; cbn; auto|].
  destruct (IH Ha) as (b & Hb & HR). exists b. cbn; auto.
Qed.

Lemma written_spec v imgs tg repos aok ps s : make_plans v imgs tg repos aok = Ok ps -> In s (written ps) ->
  exists c i h, In (mkPlan i (TSlot s h)) ps /\ In c (manifest_classes imgs) /\ image_for v imgs c = Some i /\ tg c = Some s /\
    sl_readonly s = false /\ get_update_handler i s = Ok h.
Proof.
  intros H Hin. destruct (make_plans_ok _ _ _ _ _ _ H) as (sp & ap & -> & F1 & F2).
  unfold written in Hin. apply in_flat_map in Hin as (p & Hp & Hs). apply in_app_or in Hp as [Hp|Hp].
  - destruct (Forall2_in_r _ _ _ _ F1 Hp) as (c & Hc & HR). destruct (plan_class_ok _ _ _ _ _ HR) as (i & s' & h & -> & H1 & H2 & H3 & H4).
    destruct Hs as [->|[]]. exists c, i, h. repeat split; auto. apply in_or_app. now left.
  - destruct (Forall2_in_r _ _ _ _ F2 Hp) as (i & Hi & HR). unfold plan_artifact in HR.
    destruct (existsb _ _); [|discriminate]. apply Ok_inj in HR. subst. destruct Hs.
Qed.

(** *** C01 *)
Lemma c01_ok : forall realdev bootslot slots st per_slot info sysvariant imgs repos aok ps booted,
  unique_names slots -> wf_parents slots ->
  determine_slot_states realdev (Some bootslot) slots = Ok st ->
  In booted slots -> st (sl_name booted) = ST_BOOTED -> sl_parent booted = None ->
  make_plans sysvariant imgs (determine_target_group per_slot st info slots) repos aok = Ok ps ->
  forall s, In s (written ps) ->
    sl_name s <> sl_name booted /\ sl_parent s <> Some (sl_name booted) /\ st (sl_name s) = ST_INACTIVE.
Proof.
  intros realdev bs slots st per_slot info v imgs repos aok ps booted Hu Hwf Hst Hb Hbs Hbp Hp s Hs.
  destruct (written_spec _ _ _ _ _ _ _ Hp Hs) as (c & i & h & _ & _ & _ & Htg & _).
  destruct (target_group_spec _ _ _ _ _ _ Hu Hwf Htg) as (Hin & Hcl & r & (Hr1 & Hr2 & Hr3) & Hri & _).
  unfold determine_slot_states in Hst.
  destruct (find (matches_bootslot realdev bs) (rev slots)) as [b|] eqn:Ef.
  2:{ destruct (String.eqb bs "_external_"); [|discriminate]. apply Ok_inj in Hst. subst st. discriminate. }
  apply Ok_inj in Hst. subst st. apply find_some in Ef as [Ebin _]. apply in_rev in Ebin.
  rewrite states_booted in * by assumption.
  assert (Hbb : sl_name booted = sl_name b).
  { destruct (String.eqb_spec (sl_name booted) (sl_name b)); [assumption|].
    destruct (opt_is _ _); discriminate. }
  destruct (String.eqb_spec (sl_name r) (sl_name b)) as [|Hrb]; [discriminate|].
  rewrite Hbb.
  assert (H1 : sl_name s <> sl_name b).
  { intros He. destruct Hr3 as [[_ ->]|Hr3]; [congruence|].
    assert (s = booted) by (apply (same_name_eq slots); auto; congruence). subst. congruence. }
  assert (H2 : sl_parent s <> Some (sl_name b)).
  { intros He. destruct Hr3 as [[Hr3 ->]|Hr3]; congruence. }
  split; [assumption|]. split; [assumption|].
  destruct (String.eqb_spec (sl_name s) (sl_name b)); [congruence|].
  destruct (opt_is (sl_parent s) (sl_name b)) eqn:E; [|reflexivity]. apply opt_is_spec in E. congruence.
Qed.

(** the booted slot is the one the boot slot information describes, and unique *)
Lemma states_ok : forall realdev bootslot slots st,
  unique_names slots ->
  determine_slot_states realdev (Some bootslot) slots = Ok st ->
  (exists booted, In booted slots /\ st (sl_name booted) = ST_BOOTED /\
     (sl_bootname booted = Some bootslot \/ sl_name booted = bootslot \/ realdev (sl_device booted) = bootslot) /\
     (forall s, In s slots -> st (sl_name s) = ST_BOOTED -> s = booted) /\
     (forall s, In s slots -> st (sl_name s) = ST_ACTIVE <-> (s <> booted /\ sl_parent s = Some (sl_name booted)))) \/
  (bootslot = "_external_" /\ (forall s, In s slots -> st (sl_name s) = ST_INACTIVE) /\
   forall s, In s slots -> sl_bootname s <> Some bootslot /\ sl_name s <> bootslot /\ realdev (sl_device s) <> bootslot).
Proof.
  intros realdev bs slots st Hu Hst. unfold determine_slot_states in Hst.
  destruct (find (matches_bootslot realdev bs) (rev slots)) as [b|] eqn:Ef.
  - left. apply Ok_inj in Hst. subst st. apply find_some in Ef as [Ebin Em]. apply in_rev in Ebin.
    exists b. split; [assumption|]. split; [rewrite states_booted by assumption; now rewrite String.eqb_refl|].
    split.
    { unfold matches_bootslot in Em. apply orb_true_iff in Em as [Em|Em].
      - apply orb_true_iff in Em as [Em|Em].
        + left. destruct (sl_bootname b); [|discriminate]. apply String.eqb_eq in Em. congruence.
        + right; left. now apply String.eqb_eq.
      - right; right. now apply String.eqb_eq. }
    split.
    + intros s Hs. rewrite states_booted by assumption.
      destruct (String.eqb_spec (sl_name s) (sl_name b)); [intros _; now apply (same_name_eq slots)|].
      destruct (opt_is _ _); discriminate.
    + intros s Hs. rewrite states_booted by assumption.
      destruct (String.eqb_spec (sl_name s) (sl_name b)) as [He|Hne].
      * split; [discriminate|]. intros [Hx _]. exfalso. apply Hx. now apply (same_name_eq slots).
      * destruct (opt_is (sl_parent s) (sl_name b)) eqn:E.
        -- apply opt_is_spec in E. split; [|reflexivity]. intros _. split; [congruence|assumption].
        -- split; [discriminate|]. intros [_ Hx]. apply opt_is_spec in Hx. congruence.
  - right. destruct (String.eqb_spec bs "_external_") as [->|]; [|discriminate]. apply Ok_inj in Hst. subst st.
    split; [reflexivity|]. split; [reflexivity|]. intros s Hs. pose proof (find_none _ _ Ef s) as Hn.
    rewrite <- in_rev in Hn. specialize (Hn Hs). unfold matches_bootslot in Hn.
    apply orb_false_iff in Hn as [Hn H3]. apply orb_false_iff in Hn as [H1 H2].
    apply String.eqb_neq in H2, H3. split; [|auto]. intros He. rewrite He, String.eqb_refl in H1. discriminate.
Qed.

(** *** C02 *)
Lemma c02_ok : forall per_slot st info slots tg,
  unique_names slots -> wf_parents slots ->
  tg = determine_target_group per_slot st info slots ->
  (forall c s, tg c = Some s ->
     In s slots /\ sl_class s = c /\
     exists r, group_root slots s r /\ st (sl_name r) = ST_INACTIVE) /\
  (forall c1 s1 r1 c2 s2 r2, tg c1 = Some s1 -> tg c2 = Some s2 ->
     group_root slots s1 r1 -> group_root slots s2 r2 -> sl_class r1 = sl_class r2 -> r1 = r2) /\
  (forall c s r t, tg c = Some s -> group_root slots s r -> In t slots -> group_root slots t r ->
     tg (sl_class t) <> None).
Proof.
  intros per_slot st info slots tg Hu Hwf ->. 
  assert (Huniq : forall s r r', group_root slots s r -> group_root slots s r' -> r = r').
  { intros s r r' (A1 & A2 & A3) (B1 & B2 & B3). destruct A3 as [[A3 ->]|A3], B3 as [[B3 ->]|B3]; try congruence.
    apply (same_name_eq slots); auto; congruence. }
  split; [|split].
  - intros c s H. destruct (target_group_spec _ _ _ _ _ _ Hu Hwf H) as (H1 & H2 & r & H3 & H4 & _). eauto 6.
  - intros c1 s1 r1 c2 s2 r2 H1 H2 G1 G2 Hc.
    destruct (target_group_spec _ _ _ _ _ _ Hu Hwf H1) as (_ & _ & x1 & X1 & _ & S1).
    destruct (target_group_spec _ _ _ _ _ _ Hu Hwf H2) as (_ & _ & x2 & X2 & _ & S2).
    rewrite (Huniq _ _ _ G1 X1), (Huniq _ _ _ G2 X2) in *. rewrite Hc in S1. congruence.
  - intros c s r t H G Ht Gt. destruct (target_group_spec _ _ _ _ _ _ Hu Hwf H) as (_ & _ & x & X & _ & S).
    rewrite (Huniq _ _ _ G X) in *. eapply target_group_complete; eauto.
Qed.

(** *** selection policy (C45) *)
Lemma select_policy_ok : forall st info cls slots s,
  select_inactive false st info cls slots = Some s ->
  In s slots /\ st (sl_name s) = ST_INACTIVE /\ sl_class s = cls /\
  ((ss_status (info (sl_name s)) = Some "failed" \/ ss_installed (info (sl_name s)) = None) \/
   (forall x, In x slots -> st (sl_name x) = ST_INACTIVE -> sl_class x = cls ->
      ss_status (info (sl_name x)) <> Some "failed" /\
      exists t t', ss_installed (info (sl_name s)) = Some t /\ ss_installed (info (sl_name x)) = Some t' /\ (t <= t')%Z)).
Proof.
  intros st info cls slots s H. unfold select_inactive in H. pose proof H as H0.
  apply select_loop_some in H as [(H1 & H2 & H3)|]; [|discriminate]. repeat split; auto.
  apply select_global in H0; [|discriminate].
  destruct (find _ slots) as [u|] eqn:Ef.
  - left. subst u. apply find_some in Ef as [_ Hx]. apply andb_true_iff in Hx as [_ Hx]. unfold urgent in Hx.
    apply orb_true_iff in Hx as [Hx|Hx]; [left; now apply opt_is_spec|right; destruct (ss_installed _); [discriminate|reflexivity]].
  - right. destruct H0 as (Ha & Hb & _). intros x Hx Hi Hc.
    assert (Hcand : candidate st cls x = true).
    { unfold candidate. rewrite Hi. cbn. now apply String.eqb_eq. }
    split; [|now apply Hb]. intros Hf. pose proof (find_none _ _ Ef x Hx) as Hn. cbv beta in Hn.
    rewrite Hcand in Hn. unfold urgent in Hn. apply opt_is_spec in Hf. rewrite Hf in Hn. discriminate.
Qed.

Lemma select_exists_ok : forall per_slot st info cls slots,
  (exists x, In x slots /\ st (sl_name x) = ST_INACTIVE /\ sl_class x = cls) ->
  exists s, select_inactive per_slot st info cls slots = Some s.
Proof.
  intros per_slot st info cls slots (x & Hx & Hi & Hc). destruct (select_inactive _ _ _ _ _) as [s|] eqn:E; [eauto|].
  unfold select_inactive in E. apply select_none in E as [_ E]. specialize (E x Hx). unfold candidate in E.
  rewrite Hi, Hc, String.eqb_refl in E. discriminate.
Qed.

(** *** C03 *)
Lemma c03_ok : forall v imgs tg repos aok ps,
  make_plans v imgs tg repos aok = Ok ps ->
  exists sp ap, ps = sp ++ ap /\
    (* one slot plan per class named by a non-artifact image *)
    NoDup (map (fun p => im_class (pl_image p)) sp) /\
    (forall c, In c (map (fun p => im_class (pl_image p)) sp) <->
       exists i, In i imgs /\ im_artifact i = None /\ im_class i = c) /\
    (* with the right image, target and handler *)
    (forall p, In p sp -> exists s h, pl_target p = TSlot s h /\
       image_for v imgs (im_class (pl_image p)) = Some (pl_image p) /\
       tg (im_class (pl_image p)) = Some s /\ sl_readonly s = false /\
       get_update_handler (pl_image p) s = Ok h) /\
    (* and one repo plan per artifact image *)
    map pl_image ap = filter is_artifact imgs /\
    (forall p, In p ap -> pl_target p = TRepo (im_class (pl_image p)) /\ In (im_class (pl_image p)) repos).
Proof.
  intros v imgs tg repos aok ps H. destruct (make_plans_ok _ _ _ _ _ _ H) as (sp & ap & -> & F1 & F2).
  exists sp, ap. split; [reflexivity|].
  assert (Hcls : map (fun p => im_class (pl_image p)) sp = manifest_classes imgs).
  { clear - F1. induction F1 as [|c p l m Hp F IH]; [reflexivity|]. cbn. rewrite IH. f_equal.
    destruct (plan_class_ok _ _ _ _ _ Hp) as (i & s & h & -> & Hi & _). cbn. now apply image_for_in in Hi. }
  destruct (manifest_classes_spec imgs) as [M1 M2].
  split; [now rewrite Hcls|]. split; [intros c; now rewrite Hcls|]. split; [|split].
  - intros p Hp. destruct (Forall2_in_r _ _ _ _ F1 Hp) as (c & _ & HR).
    destruct (plan_class_ok _ _ _ _ _ HR) as (i & s & h & -> & H1 & H2 & H3 & H4). cbn.
    destruct (image_for_in _ _ _ _ H1) as [_ <-]. eauto 8.
  - clear - F2. induction F2 as [|i p l m Hp F IH]; [reflexivity|]. cbn. rewrite IH. f_equal.
    unfold plan_artifact in Hp. destruct (existsb _ _); [|discriminate]. apply Ok_inj in Hp. now subst.
  - intros p Hp. destruct (Forall2_in_r _ _ _ _ F2 Hp) as (i & _ & HR). unfold plan_artifact in HR.
    destruct (existsb _ _) eqn:E; [|discriminate]. apply Ok_inj in HR. subst. cbn. split; [reflexivity|].
    apply existsb_exists in E as (x & Hx & He). apply String.eqb_eq in He. now subst.
Qed.

(** slot plans never use an artifact image, because repo and slot class names are disjoint *)
Lemma c03_no_artifact_ok : forall v imgs tg repos aok ps,
  (forall c s, tg c = Some s -> ~ In c repos) ->
  make_plans v imgs tg repos aok = Ok ps ->
  forall p s h, In p ps -> pl_target p = TSlot s h -> im_artifact (pl_image p) = None.
Proof.
  intros v imgs tg repos aok ps Hdis H p s h Hp Ht.
  destruct (c03_ok _ _ _ _ _ _ H) as (sp & ap & -> & _ & _ & Hs & Ha & Har).
  apply in_app_or in Hp as [Hp|Hp].
  2:{ destruct (Har p Hp) as [Hx _]. congruence. }
  destruct (Hs p Hp) as (s' & h' & Ht' & Hi & Htg & _). destruct (im_artifact (pl_image p)) as [a|] eqn:Ea; [|reflexivity].
  exfalso. destruct (image_for_in _ _ _ _ Hi) as [Hin _].
  assert (Hf : In (pl_image p) (filter is_artifact imgs)) by (apply filter_In; unfold is_artifact; now rewrite Ea).
  rewrite <- Ha in Hf. apply in_map_iff in Hf as (q & Hq & Hqin). destruct (Har q Hqin) as [_ Hr]. rewrite Hq in Hr.
  eapply Hdis; eauto.
Qed.

(** refusal *)
Lemma c03_refuse_ok : forall v imgs tg repos aok i,
  In i imgs -> im_artifact i = None ->
  (forall j, In j imgs -> im_class j = im_class i -> exists x, im_variant j = Some x /\ v <> Some x) ->
  make_plans v imgs tg repos aok = Err.
Proof.
  intros v imgs tg repos aok i Hi Ha Hno. unfold make_plans.
  rewrite (map_res_err _ _ (im_class i)); [reflexivity| | |intros; apply plan_class_no_abort].
  - apply manifest_classes_spec. eauto.
  - unfold plan_class. rewrite match_image_for. destruct (image_for v imgs (im_class i)) as [j|] eqn:E; [|reflexivity].
    exfalso. unfold image_for in E. destruct (find (fun k => _ && has_variant v k) imgs) as [k|] eqn:E1.
    + apply find_some in E1 as [K1 K2]. apply andb_true_iff in K2 as [K2 K3]. apply String.eqb_eq in K2.
      destruct (Hno k K1 K2) as (x & Hx & Hne). unfold has_variant in K3. rewrite Hx in K3.
      destruct v as [w|]; [|discriminate]. apply String.eqb_eq in K3. congruence.
    + apply find_some in E as [K1 K2]. apply andb_true_iff in K2 as [K2 K3]. apply String.eqb_eq in K2.
      destruct (Hno j K1 K2) as (x & Hx & Hne). unfold no_variant in K3. now rewrite Hx in K3.
Qed.

(** *** pre-install checks and boot mark slot *)
Lemma checks_mounted_ok : forall ck ps,
  pre_install_checks ck ps = Ok tt ->
  forall p s h, In p ps -> pl_target p = TSlot s h ->
    ck_device ck (sl_name s) = true /\
    (ck_mounted ck (sl_name s) = true -> ck_allow_mounted ck (sl_name s) = true /\ im_install (pl_image p) = true).
Proof.
  intros ck ps. induction ps as [|q l IH]; [intros _ p s h []|]. cbn [pre_install_checks].
  destruct (check_plan ck q) as [[]| |] eqn:E; cbn [bind]; try discriminate. intros H p s h [<-|Hp] Ht; [|eauto].
  unfold check_plan in E. rewrite Ht in E.
  destruct (match im_filename (pl_image q) with Some _ => _ | None => _ end) as [[]| |]; cbn [bind] in E; try discriminate.
  destruct (ck_device ck (sl_name s)); cbn [negb] in E; [|discriminate]. split; [reflexivity|].
  unfold mount_ok in E. intros Hm. rewrite Hm in E. cbn in E.
  destruct (ck_allow_mounted ck (sl_name s)), (im_install (pl_image q)); cbn in E; try discriminate; auto.
Qed.

Lemma boot_mark_ok ps found o : boot_mark_slot ps found = Ok o ->
  match o with
  | Some s => found = Some s /\ (forall t, In t (written ps) -> sl_parent t = None -> sl_bootname t = None) \/
              (found = None /\ In s (written ps) /\ sl_parent s = None /\ sl_bootname s <> None /\
               forall t, In t (written ps) -> sl_parent t = None -> sl_bootname t <> None -> t = s)
  | None => found = None /\ forall t, In t (written ps) -> sl_parent t = None -> sl_bootname t = None
  end.
Proof.
  revert found. induction ps as [|p l IH]; intros found; cbn [boot_mark_slot].
  { intros H. apply Ok_inj in H. subst. destruct o; [left|]; split; auto; intros t []. }
  unfold written. cbn [flat_map]. fold (written l).
  destruct (pl_target p) as [s h|r]; cbn [app].
  2:{ intros H. now apply IH in H. }
  destruct (sl_parent s) as [pp|] eqn:Ep; [|destruct (sl_bootname s) as [b|] eqn:Eb].
  - intros H. apply IH in H. destruct o as [x|].
    + destruct H as [[H1 H2]|(H1 & H2 & H3 & H4 & H5)]; [left|right].
      * split; [assumption|]. intros t [<-|Ht] Hp; [congruence|auto].
      * split; [assumption|]. split; [now right|]. split; [assumption|]. split; [assumption|].
        intros t [<-|Ht] Hp Hb; [congruence|auto].
    + destruct H as [H1 H2]. split; [assumption|]. intros t [<-|Ht] Hp; [congruence|auto].
  - destruct found as [f|]; [discriminate|]. intros H. apply IH in H. destruct o as [x|].
    + destruct H as [[H1 H2]|(H1 & _)]; [|discriminate]. inversion H1; subst x. right.
      split; [reflexivity|]. split; [now left|]. split; [assumption|]. split; [congruence|].
      intros t [<-|Ht] Hp Hb; [reflexivity|]. now apply H2 in Ht.
    + destruct H as [H1 _]. discriminate.
  - intros H. apply IH in H. destruct o as [x|].
    + destruct H as [[H1 H2]|(H1 & H2 & H3 & H4 & H5)]; [left|right].
      * split; [assumption|]. intros t [<-|Ht] Hp; [congruence|auto].
      * split; [assumption|]. split; [now right|]. split; [assumption|]. split; [assumption|].
        intros t [<-|Ht] Hp Hb; [congruence|auto].
    + destruct H as [H1 H2]. split; [assumption|]. intros t [<-|Ht] Hp; [congruence|auto].
Qed.

(** *** refutations *)
Definition exR0 := mkSlot "rootfs.0" "rootfs" "/dev/a" "ext4" (Some "A") None false true.
Definition exR1 := mkSlot "rootfs.1" "rootfs" "/dev/b" "ext4" (Some "B") None false true.
Definition exP0 := mkSlot "appfs.0" "appfs" "/dev/c" "ext4" None (Some "rootfs.0") false true.
Definition exP1 := mkSlot "appfs.1" "appfs" "/dev/d" "ext4" None (Some "rootfs.1") false true.
Definition ex_tree := [exR0; exP0; exR1; exP1].
Definition ex_img (c : string) : image :=
  mkImage c None None (Some "00") 1 (Some "x.ext4") (Some "ext4") true false false false [] [] [].
Definition ex_info : string -> sel_status := fun _ => mkSel None None.

Lemma ex_tree_wf : wf_parents ex_tree.
Proof.
  intros s p Hs. cbn in Hs. destruct Hs as [<-|[<-|[<-|[<-|[]]]]]; intros H; cbn in H; try discriminate;
    apply Some_inj in H; subst p; [exists exR0|exists exR1]; cbn; auto.
Qed.

(** a booted child slot (found by its device or name) does not protect its group *)
Lemma c01_child_refuted :
  exists slots bootslot st ps booted,
    unique_names slots /\ wf_parents slots /\ unique_bootnames slots /\
    determine_slot_states (fun d => d) (Some bootslot) slots = Ok st /\
    In booted slots /\ st (sl_name booted) = ST_BOOTED /\
    make_plans None [ex_img "rootfs"; ex_img "appfs"] (determine_target_group false st ex_info slots) [] true = Ok ps /\
    In booted (written ps).
Proof.
  exists ex_tree, "/dev/c". eexists. eexists. exists exP0.
  split; [repeat constructor; cbn; intuition discriminate|].
  split; [exact ex_tree_wf|].
  split. { intros s t b Hs Ht. cbn in Hs, Ht. intuition (subst; cbn in *; congruence). }
  split; [reflexivity|]. split; [cbn; auto|]. split; [reflexivity|]. split; [reflexivity|]. cbn. auto.
Qed.

(** slots may share a device: then the booted device can be the target of another slot *)
Lemma c01_device_refuted :
  exists slots bootslot st ps booted s,
    unique_names slots /\ wf_parents slots /\ unique_bootnames slots /\
    determine_slot_states (fun d => d) (Some bootslot) slots = Ok st /\
    In booted slots /\ st (sl_name booted) = ST_BOOTED /\ sl_parent booted = None /\
    make_plans None [ex_img "rootfs"] (determine_target_group false st ex_info slots) [] true = Ok ps /\
    In s (written ps) /\ sl_device s = sl_device booted.
Proof.
  exists [exR0; mkSlot "rootfs.1" "rootfs" "/dev/a" "ext4" (Some "B") None false true], "/dev/a". eexists. eexists.
  eexists. eexists.
  split; [repeat constructor; cbn; intuition discriminate|].
  split. { intros s p Hs. cbn in Hs. intuition (subst; cbn in *; discriminate). }
  split. { intros s t b Hs Ht. cbn in Hs, Ht. intuition (subst; cbn in *; congruence). }
  split; [reflexivity|]. split; [right; left; reflexivity|]. split; [reflexivity|]. split; [reflexivity|].
  split; [reflexivity|]. split; [left; reflexivity|]. reflexivity.
Qed.

(** two bootable redundancy groups in one bundle abort the process *)
Lemma boot_mark_abort_refuted :
  exists slots st ps,
    unique_names slots /\ wf_parents slots /\ unique_bootnames slots /\
    make_plans None [ex_img "rootfs"; ex_img "rescue"] (determine_target_group false st ex_info slots) [] true = Ok ps /\
    boot_mark_slot ps None = Abort.
Proof.
  exists [exR0; mkSlot "rescue.0" "rescue" "/dev/r" "ext4" (Some "R") None false true], (fun _ => ST_INACTIVE). eexists.
  split; [repeat constructor; cbn; intuition discriminate|].
  split. { intros s p Hs. cbn in Hs. intuition (subst; cbn in *; discriminate). }
  split. { intros s t b Hs Ht. cbn in Hs, Ht. intuition (subst; cbn in *; congruence). }
  split; reflexivity.
Qed.

Lemma boot_mark_final_ok : forall ps o, boot_mark_slot ps None = Ok o ->
  match o with
  | Some s => In s (written ps) /\ sl_parent s = None /\ sl_bootname s <> None /\
              forall t, In t (written ps) -> sl_parent t = None -> sl_bootname t <> None -> t = s
  | None => forall t, In t (written ps) -> sl_parent t = None -> sl_bootname t = None
  end.
Proof.
  intros ps o H. apply boot_mark_ok in H. destruct o as [s|].
  - destruct H as [[H _]|(_ & H)]; [discriminate|exact H].
  - now destruct H.
Qed.
