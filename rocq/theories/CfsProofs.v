From Verif Require Import Base BaseLemmas Cfs CfsSpec.

(** ** items and disks *)
Lemma item_eqb_spec : forall a b, reflect (a = b) (item_eqb a b).
Proof.
  intros [o|n g|n g|n] [o'|n' g'|n' g'|n']; cbn [item_eqb]; try (constructor; discriminate).
  - destruct (String.eqb_spec o o') as [->|H]; constructor; congruence.
  - destruct (String.eqb_spec n n') as [->|H]; [destruct (String.eqb_spec g g') as [->|H]|]; constructor; congruence.
  - destruct (String.eqb_spec n n') as [->|H]; [destruct (String.eqb_spec g g') as [->|H]|]; constructor; congruence.
  - destruct (String.eqb_spec n n') as [->|H]; constructor; congruence.
Qed.
Lemma item_eqb_refl : forall a, item_eqb a a = true.
Proof. intros a. destruct (item_eqb_spec a a); congruence. Qed.
Lemma item_eq_dec : forall a b : item, a = b \/ a <> b.
Proof. intros a b. destruct (item_eqb_spec a b); auto. Qed.
Lemma get_del : forall k j d, get k (del j d) = if item_eqb k j then None else get k d.
Proof.
  intros k j d. unfold get, del. induction d as [|[i v] d IH]; cbn [filter find fst].
  - destruct (item_eqb k j); reflexivity.
  - destruct (item_eqb_spec j i) as [->|Hji]; cbn [negb].
    + rewrite IH. destruct (item_eqb_spec k i) as [->|Hki]; reflexivity.
    + cbn [find fst]. destruct (item_eqb_spec k i) as [->|Hki].
      * destruct (item_eqb_spec i j); [congruence|]. reflexivity.
      * exact IH.
Qed.
Lemma get_put : forall k j v d, get k (put j v d) = if item_eqb k j then Some v else get k d.
Proof.
  intros k j v d. unfold put. unfold get at 1. cbn [find fst]. destruct (item_eqb_spec k j) as [->|H]; [reflexivity|].
  fold (get k (del j d)). rewrite get_del. destruct (item_eqb_spec k j); congruence.
Qed.
Lemma get_put_same : forall k v d, get k (put k v d) = Some v.
Proof. intros. rewrite get_put, item_eqb_refl. reflexivity. Qed.
Lemma get_put_other : forall k j v d, k <> j -> get k (put j v d) = get k d.
Proof. intros. rewrite get_put. destruct (item_eqb_spec k j); congruence. Qed.
Lemma get_del_same : forall k d, get k (del k d) = None.
Proof. intros. rewrite get_del, item_eqb_refl. reflexivity. Qed.
Lemma get_del_other : forall k j d, k <> j -> get k (del j d) = get k d.
Proof. intros. rewrite get_del. destruct (item_eqb_spec k j); congruence. Qed.

Lemma get_in : forall k v d, get k d = Some v -> In (k, v) d.
Proof.
  intros k v d H. unfold get in H. destruct (find _ d) as [[j x]|] eqn:E; [|discriminate]. apply find_some in E as [E1 E2]. cbn in *.
  apply Some_inj in H. subst x. destruct (item_eqb_spec k j); [subst; exact E1|discriminate].
Qed.
Lemma in_get : forall k v d, NoDup (map fst d) -> In (k, v) d -> get k d = Some v.
Proof.
  intros k v d ND H. induction d as [|[j x] d IH]; [destruct H|]. cbn [map fst] in ND. inversion ND as [|? ? N1 N2]; subst. unfold get. cbn [find fst].
  destruct H as [H|H].
  - injection H as -> ->. rewrite item_eqb_refl. reflexivity.
  - destruct (item_eqb_spec k j) as [->|Hk]; [|exact (IH N2 H)]. exfalso. apply N1. apply in_map_iff. exists (j, v). auto.
Qed.
Lemma del_nodup : forall k d, NoDup (map fst d) -> NoDup (map fst (del k d)).
Proof.
  intros k d H. unfold del. induction d as [|[j x] d IH]; [constructor|]. cbn [map fst] in H. inversion H as [|? ? N1 N2]; subst. cbn [filter fst].
  destruct (negb (item_eqb k j)); [|exact (IH N2)]. cbn [map fst]. constructor; [|exact (IH N2)]. intros X. apply N1.
  apply in_map_iff in X as (y & E & X). apply filter_In in X as [X _]. apply in_map_iff. eauto.
Qed.
Lemma put_nodup : forall k v d, NoDup (map fst d) -> NoDup (map fst (put k v d)).
Proof.
  intros k v d H. unfold put. cbn [map fst]. constructor; [|apply del_nodup, H]. intros X. apply in_map_iff in X as ([j x] & E & X). cbn in E. subst j.
  unfold del in X. apply filter_In in X as [_ X]. cbn in X. rewrite item_eqb_refl in X. discriminate.
Qed.
Lemma app_op_nodup : forall o d, NoDup (map fst d) -> NoDup (map fst (app_op o d)).
Proof.
  intros [k v|a b|k| |] d H; cbn [app_op]; try assumption.
  - now apply put_nodup.
  - destruct (get a d); [|assumption]. apply put_nodup, del_nodup, H.
  - now apply del_nodup.
Qed.

Lemma in_arts : forall n g d, In (n, g) (arts_in d) <-> get (KArt n g) d <> None.
Proof.
  intros n g d. split.
  - intros H. apply in_flat_map in H as ([k v] & H1 & H2). cbn in H2. destruct k; cbn in H2; try contradiction. destruct H2 as [H2|[]]. injection H2 as -> ->.
    unfold get. destruct (find _ d) eqn:E; [discriminate|]. exfalso. pose proof (find_none _ _ E _ H1) as X. cbn in X. rewrite !String.eqb_refl in X. discriminate X.
  - intros H. destruct (get (KArt n g) d) as [v|] eqn:E; [|congruence]. apply get_in in E. apply in_flat_map. exists (KArt n g, v). split; [exact E|left; reflexivity].
Qed.
Lemma in_objs : forall o d, In o (objs_in d) <-> get (KObj o) d <> None.
Proof.
  intros o d. split.
  - intros H. apply in_flat_map in H as ([k v] & H1 & H2). cbn in H2. destruct k; cbn in H2; try contradiction. destruct H2 as [H2|[]]. subst.
    unfold get. destruct (find _ d) eqn:E; [discriminate|]. exfalso. pose proof (find_none _ _ E _ H1) as X. cbn in X. rewrite !String.eqb_refl in X. discriminate X.
  - intros H. destruct (get (KObj o) d) as [v|] eqn:E; [|congruence]. apply get_in in E. apply in_flat_map. exists (KObj o, v). split; [exact E|left; reflexivity].
Qed.
Lemma in_tmps : forall n g d, In (n, g) (tmps_in d) <-> get (KTmp n g) d <> None.
Proof.
  intros n g d. split.
  - intros H. apply in_flat_map in H as ([k v] & H1 & H2). cbn in H2. destruct k; cbn in H2; try contradiction. destruct H2 as [H2|[]]. injection H2 as -> ->.
    unfold get. destruct (find _ d) eqn:E; [discriminate|]. exfalso. pose proof (find_none _ _ E _ H1) as X. cbn in X. rewrite !String.eqb_refl in X. discriminate X.
  - intros H. destruct (get (KTmp n g) d) as [v|] eqn:E; [|congruence]. apply get_in in E. apply in_flat_map. exists (KTmp n g, v). split; [exact E|left; reflexivity].
Qed.
Lemma in_links : forall n g d, NoDup (map fst d) -> (In (n, g) (links_in d) <-> get (KLink n) d = Some g).
Proof.
  intros n g d ND. split.
  - intros H. apply in_flat_map in H as ([k v] & H1 & H2). destruct k; cbn in H2; try contradiction. destruct H2 as [H2|[]]. injection H2 as -> ->. now apply in_get.
  - intros H. apply get_in in H. apply in_flat_map. exists (KLink n, g). split; [exact H|left; reflexivity].
Qed.
Lemma links_names_nodup : forall d, NoDup (map fst d) -> NoDup (map fst (links_in d)).
Proof.
  intros d H. induction d as [|[k v] d IH]; [constructor|]. cbn [map fst] in H. inversion H as [|? ? N1 N2]; subst. unfold links_in. cbn [flat_map].
  fold (links_in d). destruct k; cbn [app]; try exact (IH N2). cbn [map fst]. constructor; [|exact (IH N2)]. intros X. apply in_map_iff in X as ([m g] & E & X). cbn in E. subst m.
  apply in_links in X; [|exact N2]. apply get_in in X. apply N1. apply in_map_iff. exists (KLink n, g). auto.
Qed.

Lemma mem_in : forall o l, mem o l = true <-> In o l.
Proof.
  intros o l. unfold mem. rewrite existsb_exists. split; [intros (x & H & E); apply String.eqb_eq in E; now subst|].
  intros H. exists o. split; [exact H|apply String.eqb_refl].
Qed.
Lemma kmem_in : forall a l, kmem a l = true <-> In a l.
Proof.
  intros [n g] l. unfold kmem. rewrite existsb_exists. split.
  - intros ([m h] & H & E). unfold key_eqb in E. cbn in E. apply andb_prop in E as [E1 E2]. apply String.eqb_eq in E1, E2. now subst.
  - intros H. exists (n, g). split; [exact H|]. unfold key_eqb. cbn. rewrite !String.eqb_refl. reflexivity.
Qed.
Lemma active_in : forall act n g, active act n = Some g -> In (n, g) act.
Proof.
  intros act n g H. unfold active in H. destruct (find (fun a => String.eqb (fst a) n) act) as [[m h]|] eqn:E; [|discriminate]. apply Some_inj in H. cbn in H. subst h.
  apply find_some in E as [E1 E2]. cbn in E2. apply String.eqb_eq in E2. now subst.
Qed.
Lemma in_active : forall act n g, NoDup (map fst act) -> In (n, g) act -> active act n = Some g.
Proof.
  intros act n g ND H. unfold active. induction act as [|[m h] act IH]; [destruct H|]. cbn [map fst] in ND. inversion ND as [|? ? N1 N2]; subst. cbn [find fst].
  destruct H as [H|H].
  - injection H as -> ->. rewrite String.eqb_refl. reflexivity.
  - destruct (String.eqb_spec m n) as [->|Hm]; [|exact (IH N2 H)]. exfalso. apply N1. apply in_map_iff. exists (n, g). auto.
Qed.
Lemma active_none : forall act n, active act n = None -> forall g, ~ In (n, g) act.
Proof.
  intros act n H g X. unfold active in H. destruct (find (fun a => String.eqb (fst a) n) act) eqn:E; [discriminate|]. pose proof (find_none _ _ E _ X) as Y. cbn in Y. rewrite String.eqb_refl in Y. discriminate.
Qed.
Lemma filter_names_nodup : forall (f : key -> bool) act, NoDup (map fst act) -> NoDup (map fst (filter f act)).
Proof.
  intros f act H. induction act as [|a act IH]; [constructor|]. cbn [map] in H. inversion H as [|? ? N1 N2]; subst. cbn [filter]. destruct (f a); [|exact (IH N2)].
  cbn [map]. constructor; [|exact (IH N2)]. intros X. apply N1. apply in_map_iff in X as (y & E & X). apply filter_In in X as [X _]. apply in_map_iff. eauto.
Qed.
Lemma activate_nodup : forall a act, NoDup (map fst act) -> NoDup (map fst (activate a act)).
Proof.
  intros a act H. unfold activate. cbn [map]. constructor; [|apply filter_names_nodup, H]. intros X. apply in_map_iff in X as (y & E & X). apply filter_In in X as [_ X].
  rewrite E, String.eqb_refl in X. discriminate X.
Qed.

(** ** possible states *)
Fixpoint play (l : list op) (d : disk) : disk := match l with [] => d | o :: r => play r (app_op o d) end.
Lemma play_snoc : forall l o d, play (l ++ [o]) d = app_op o (play l d).
Proof. induction l as [|x l IH]; intros o d; [reflexivity|]. cbn [app play]. apply IH. Qed.
Lemma poss_ops_snoc : forall l o d P, poss_ops (l ++ [o]) d P = poss_step o (play l d) (poss_ops l d P).
Proof. induction l as [|x l IH]; intros o d P; [reflexivity|]. cbn [app poss_ops play]. apply IH. Qed.
Lemma poss_step_cur : forall o d (P : poss), (forall k, P k (get k d)) -> forall k, poss_step o d P k (get k (app_op o d)).
Proof.
  intros [j v|a b|j| |] d P H k; cbn [poss_step app_op].
  - rewrite get_put. destruct (item_eqb_spec k j) as [->|E]; [right; auto|left; apply H].
  - destruct (get a d) as [v|] eqn:E.
    + rewrite get_put, get_del. destruct (item_eqb_spec k b) as [->|Eb].
      * right. right. split; [reflexivity|]. split; [|discriminate]. rewrite <- E. apply H.
      * destruct (item_eqb_spec k a) as [->|Ea]; [right; left; auto|left; apply H].
    + left. apply H.
  - rewrite get_del. destruct (item_eqb_spec k j) as [->|E]; [right; auto|left; apply H].
  - reflexivity.
  - destruct k; try apply H; try reflexivity; (destruct (get _ d) eqn:E; [|reflexivity]; split; [rewrite <- E; apply H|discriminate]).
Qed.
Lemma poss_ops_cur : forall l d (P : poss), (forall k, P k (get k d)) -> forall k, poss_ops l d P k (get k (play l d)).
Proof. induction l as [|o l IH]; intros d P H k; [apply H|]. cbn [poss_ops play]. apply IH. now apply poss_step_cur. Qed.

Section crash.
Variable load : string -> option node.
Variable imgok : string -> string -> string -> Prop.
Variable right : string -> string -> Prop.
Variable d0 : disk.
(** artifacts which are in use all the time *)
Variable inuse : string -> string -> Prop.

Definition sure (P : poss) (o : string) : Prop := forall v, P (KObj o) v -> exists c, v = Some c /\ right o c.
Definition full (P : poss) (L : list string) (n g : string) : Prop :=
  exists img objs, (forall v, P (KArt n g) v -> v = Some img) /\ imgok n g img /\ objects_of load img = Ok objs /\
    forall o, In o objs -> In o L /\ sure P o.
Definition full0 (P : poss) (n g : string) : Prop :=
  exists img objs, (forall v, P (KArt n g) v -> v = Some img) /\ imgok n g img /\ objects_of load img = Ok objs /\
    forall o, In o objs -> sure P o.
Definition safe (P : poss) : Prop := (forall n g, P (KLink n) (Some g) -> full0 P n g) /\ forall n g, inuse n g -> full0 P n g.

Lemma full_full0 : forall P L n g, full P L n g -> full0 P n g.
Proof. intros P L n g (img & objs & A & B & C & D). exists img, objs. repeat split; auto. intros o Ho. apply D, Ho. Qed.
Lemma full_frame : forall (P Q : poss) L n g, (forall v, Q (KArt n g) v -> P (KArt n g) v) -> (forall o v, In o L -> Q (KObj o) v -> P (KObj o) v) -> full P L n g -> full Q L n g.
Proof.
  intros P Q L n g H1 H2 (img & objs & A & B & C & D). exists img, objs. split; [auto|]. split; [exact B|]. split; [exact C|].
  intros o Ho. destruct (D o Ho) as [D1 D2]. split; [exact D1|]. intros v Hv. apply D2. now apply H2.
Qed.

Definition PS (s : st) : poss := poss_ops (s_ops s) d0 (on_disk d0).
Record G (s : st) : Prop := mk_G {
  G_dir : s_dir s = play (s_ops s) d0;
  G_safe : forall p q, s_ops s = p ++ q -> safe (poss_ops p d0 (on_disk d0));
  G_nodup : NoDup (map fst (s_dir s))
}.
Definition facts (d : disk) (P : poss) : Prop := NoDup (map fst d) /\ safe P /\ forall k, P k (get k d).
Lemma G_facts : forall s, G s -> facts (s_dir s) (PS s).
Proof.
  intros s [H1 H2 H3]. split; [exact H3|]. split.
  - apply (H2 (s_ops s) []). now rewrite app_nil_r.
  - rewrite H1. apply poss_ops_cur. reflexivity.
Qed.
Definition asrt := disk -> poss -> Prop.
Definition hoare {A} (Pre : asrt) (m : M A) (Post : A -> asrt) : Prop :=
  forall s, G s -> Pre (s_dir s) (PS s) ->
  match m s with
  | (Ok a, s') => G s' /\ Post a (s_dir s') (PS s')
  | (Err, s') => G s'
  | (Abort, _) => False
  end.
Lemma G_env : forall s e, G s -> G (mkst (s_dir s) (s_ops s) e).
Proof. intros s e [A B C]. now constructor. Qed.
Lemma hoare_step : forall o (Pre : asrt) (Post : unit -> asrt),
  (forall d P, Pre d P -> facts d P -> safe (poss_step o d P) /\ Post tt (app_op o d) (poss_step o d P)) -> hoare Pre (step o) Post.
Proof.
  intros o Pre Post H s HG HP. destruct (H _ _ HP (G_facts _ HG)) as [H1 H2].
  assert (X : forall e, G (mkst (app_op o (s_dir s)) (s_ops s ++ [o]) e) /\ Post tt (app_op o (s_dir s)) (PS (mkst (app_op o (s_dir s)) (s_ops s ++ [o]) e))).
  { intros e. assert (E : PS (mkst (app_op o (s_dir s)) (s_ops s ++ [o]) e) = poss_step o (s_dir s) (PS s)).
    { unfold PS. cbn [s_ops]. rewrite (G_dir _ HG). apply poss_ops_snoc. }
    split; [|rewrite E; exact H2]. destruct HG as [A B C]. constructor; cbn [s_dir s_ops].
    - now rewrite play_snoc, <- A.
    - intros p q Hpq. destruct q as [|y q'] eqn:Eq.
      + rewrite app_nil_r in Hpq. subst p. unfold PS in E. cbn [s_ops] in E. now rewrite E.
      + destruct (@exists_last _ (y :: q')) as (q2 & z & Hz); [discriminate|]. rewrite Hz in Hpq.
        rewrite app_assoc in Hpq. apply app_inj_tail in Hpq. destruct Hpq as [Hpq _]. now apply (B p q2).
    - now apply app_op_nodup. }
  unfold step. destruct (s_env s) as [|[|] e]; try apply X. now apply (G_env _ e).
Qed.
Lemma hoare_call : forall (Pre : asrt), hoare Pre callM (fun _ => Pre).
Proof.
  intros Pre s HG HP. unfold callM. destruct (s_env s) as [|[|] e]; [auto| |now apply (G_env _ e)]. split; [now apply (G_env _ e)|exact HP].
Qed.
Lemma hoare_ret : forall {A} (a : A) (Pre : asrt) (Post : A -> asrt), (forall d P, Pre d P -> facts d P -> Post a d P) -> hoare Pre (ret a) Post.
Proof. intros A a Pre Post H s HG HP. unfold ret. split; [exact HG|]. apply H; [exact HP|now apply G_facts]. Qed.
Lemma hoare_fail : forall {A} (Pre : asrt) (Post : A -> asrt), hoare Pre fail Post.
Proof. intros A Pre Post s HG HP. exact HG. Qed.
Lemma hoare_abort : forall {A} (Pre : asrt) (Post : A -> asrt), (forall d P, Pre d P -> facts d P -> False) -> hoare Pre abort Post.
Proof. intros A Pre Post H s HG HP. exact (H _ _ HP (G_facts _ HG)). Qed.
Lemma hoare_bind : forall {A B} (Pre : asrt) (m : M A) (f : A -> M B) (Mid : A -> asrt) (Post : B -> asrt),
  hoare Pre m Mid -> (forall a, hoare (Mid a) (f a) Post) -> hoare Pre (bindM m f) Post.
Proof.
  intros A B Pre m f Mid Post H1 H2 s HG HP. unfold bindM. specialize (H1 s HG HP). destruct (m s) as [[a| |] s']; [|exact H1|exact H1].
  destruct H1 as (HG' & HM). exact (H2 a s' HG' HM).
Qed.
Lemma hoare_get : forall {B} (Pre : asrt) (f : disk -> M B) (Post : B -> asrt),
  (forall d, hoare (fun d' P => d' = d /\ Pre d P) (f d) Post) -> hoare Pre (bindM get_dir f) Post.
Proof. intros B Pre f Post H s HG HP. unfold bindM, get_dir. apply (H (s_dir s) s HG). auto. Qed.
Lemma hoare_conseq : forall {A} (Pre Pre' : asrt) (m : M A) (Post Post' : A -> asrt),
  hoare Pre' m Post' -> (forall d P, Pre d P -> facts d P -> Pre' d P) -> (forall a d P, Post' a d P -> facts d P -> Post a d P) -> hoare Pre m Post.
Proof.
  intros A Pre Pre' m Post Post' H H1 H2 s HG HP. specialize (H s HG (H1 _ _ HP (G_facts _ HG))). destruct (m s) as [[a| |] s']; auto.
  destruct H as [X Y]. split; [exact X|]. apply H2; [exact Y|now apply G_facts].
Qed.
Lemma hoare_pre : forall {A} (Pre Pre' : asrt) (m : M A) (Post : A -> asrt),
  (forall d P, Pre d P -> facts d P -> Pre' d P) -> hoare Pre' m Post -> hoare Pre m Post.
Proof. intros. eapply hoare_conseq; eauto. Qed.
(** a pure fact of the precondition *)
Lemma hoare_pure : forall {A} (X : Prop) (Pre : asrt) (m : M A) (Post : A -> asrt),
  (forall d P, Pre d P -> X) -> (X -> hoare Pre m Post) -> hoare Pre m Post.
Proof. intros A X Pre m Post H1 H2 s HG HP. exact (H2 (H1 _ _ HP) s HG HP). Qed.
(** loops; the argument of the invariant is what remains to be done *)
Lemma hoare_forM : forall {A} (f : A -> M unit) (Inv : list A -> asrt),
  (forall x rest, hoare (Inv (x :: rest)) (f x) (fun _ => Inv rest)) -> forall l, hoare (Inv l) (forM l f) (fun _ => Inv []).
Proof.
  intros A f Inv H l. induction l as [|a l IH]; cbn [forM].
  - apply hoare_ret. auto.
  - eapply hoare_bind; [apply H|]. intros u. exact IH.
Qed.
(** the same invariant throughout *)
Lemma hoare_forM_const : forall {A} (f : A -> M unit) (Inv : asrt), (forall x, hoare Inv (f x) (fun _ => Inv)) -> forall l, hoare Inv (forM l f) (fun _ => Inv).
Proof. intros A f Inv H l. apply (hoare_forM f (fun _ => Inv)). intros x _. apply H. Qed.

(** ** the invariant of the repository in memory *)
Definition settled (act : list key) (P : poss) : Prop := forall n v, P (KLink n) v -> v = active act n.
Record J (T : list key) (L : list string) (d : disk) (P : poss) : Prop := mk_J {
  j_full : forall n g, In (n, g) T -> full P L n g;
  j_local : forall o, In o L -> sure P o;
  j_link : forall n g, P (KLink n) (Some g) -> In (n, g) T;
  j_art : forall n g, get (KArt n g) d <> None -> In (n, g) T;
  j_tmp : forall n g, get (KTmp n g) d = None;
  j_obj : forall o, get (KObj o) d <> None -> In o L;
  j_use : forall n g, inuse n g -> In (n, g) T
}.
Lemma J_safe : forall T L (d : disk) P, (forall n g, In (n, g) T -> full P L n g) -> (forall n g, P (KLink n) (Some g) -> In (n, g) T) -> (forall n g, inuse n g -> In (n, g) T) -> safe P.
Proof. intros T L d P H1 H2 H3. split; intros n g H; [exact (full_full0 _ _ _ _ (H1 _ _ (H2 _ _ H)))|exact (full_full0 _ _ _ _ (H1 _ _ (H3 _ _ H)))]. Qed.

(** ** pruning *)
Definition kept (w : world) (act : list key) (a : key) : Prop := In a act \/ w_open w (fst a) (snd a) = Some true.
(** during the removal of left-over temporary entries and of artifacts: [K] kept, [F] still to be looked at *)
Record Q (w : world) (act : list key) (L : list string) (K F : list key) (d : disk) (P : poss) : Prop := mk_Q {
  q_set : settled act P;
  q_kept : forall a, In a K -> kept w act a;
  q_full : forall n g, In (n, g) (K ++ F) -> kept w act (n, g) -> full P L n g;
  q_art : forall n g, get (KArt n g) d <> None -> In (n, g) (K ++ F);
  q_obj : forall o, get (KObj o) d <> None -> In o L;
  q_act : forall a, In a act -> In a (K ++ F);
  q_use : forall n g, inuse n g -> In (n, g) (K ++ F) /\ kept w act (n, g)
}.
Lemma Q_frame : forall w act L K F d d' (P P' : poss),
  (forall n v, P' (KLink n) v -> P (KLink n) v) -> (forall n g v, kept w act (n, g) -> P' (KArt n g) v -> P (KArt n g) v) -> (forall o v, P' (KObj o) v -> P (KObj o) v) ->
  (forall n g, get (KArt n g) d' <> None -> get (KArt n g) d <> None) -> (forall o, get (KObj o) d' <> None -> get (KObj o) d <> None) ->
  Q w act L K F d P -> Q w act L K F d' P'.
Proof.
  intros w act L K F d d' P P' H1 H2 H3 H4 H5 [A B C D E X U]. constructor; auto.
  - intros n v Hv. apply A. auto.
  - intros n g Hin Hk. apply (full_frame P); auto.
Qed.
Lemma Q_safe : forall w act L K F d P, Q w act L K F d P -> safe P.
Proof.
  intros w act L K F d P [A B C D E X U]. split; [|intros n g H; apply (full_full0 P L), C; apply U, H]. intros n g H. specialize (A _ _ H). symmetry in A. apply active_in in A. apply (full_full0 P L). apply C; [apply X, A|left; exact A].
Qed.
Lemma prune_tmps_ok : forall w act L F l,
  hoare (fun d P => Q w act L [] F d P /\ forall n g, get (KTmp n g) d <> None -> In (n, g) l)
        (forM l (fun a => rm_tree w (KTmp (fst a) (snd a))))
        (fun _ d P => Q w act L [] F d P /\ forall n g, get (KTmp n g) d = None).
Proof.
  intros w act L F l.
  eapply hoare_conseq; [apply (hoare_forM _ (fun l d P => Q w act L [] F d P /\ forall n g, get (KTmp n g) d <> None -> In (n, g) l))|auto|].
  2:{ intros _ d P (H1 & H2) _. split; [exact H1|]. intros n g. destruct (get (KTmp n g) d) eqn:E; [|reflexivity]. exfalso. apply (H2 n g). congruence. }
  intros [n g] rest. unfold rm_tree. apply hoare_get. intros d1. cbn [fst snd]. destruct (get (KTmp n g) d1) eqn:E1; [|apply hoare_fail].
  eapply hoare_bind with (Mid := fun _ d P => Q w act L [] F d P /\ forall m h, get (KTmp m h) d <> None -> In (m, h) ((n, g) :: rest)).
  - eapply hoare_conseq with (Pre' := fun d P => Q w act L [] F d P /\ forall m h, get (KTmp m h) d <> None -> In (m, h) ((n, g) :: rest)) (Post' := fun _ d P => Q w act L [] F d P /\ forall m h, get (KTmp m h) d <> None -> In (m, h) ((n, g) :: rest)).
    + apply hoare_forM_const. intros x. apply hoare_step. intros d P (H1 & H2) Hf.
      assert (X : Q w act L [] F (app_op (OData (KTmp n g) x) d) (poss_step (OData (KTmp n g) x) d P)).
      { cbn [app_op poss_step]. apply (Q_frame w act L [] F d _ P); [| | | | |exact H1].
        - intros m v [K|[K _]]; [exact K|discriminate K].
        - intros m h v _ [K|[K _]]; [exact K|discriminate K].
        - intros o v [K|[K _]]; [exact K|discriminate K].
        - intros m h. rewrite get_put_other by discriminate. auto.
        - intros o. rewrite get_put_other by discriminate. auto. }
      split; [exact (Q_safe _ _ _ _ _ _ _ X)|]. split; [exact X|]. intros m h. cbn [app_op]. rewrite get_put. destruct (item_eqb_spec (KTmp m h) (KTmp n g)) as [Eq|_]; [injection Eq as -> ->; intros _; left; reflexivity|apply H2].
    + intros d P (-> & H) _. exact H.
    + auto.
  - intros _. apply hoare_step. intros d P (H1 & H2) Hf.
    assert (X : Q w act L [] F (app_op (ORemove (KTmp n g)) d) (poss_step (ORemove (KTmp n g)) d P)).
    { cbn [app_op poss_step]. apply (Q_frame w act L [] F d _ P); [| | | | |exact H1].
      - intros m v [K|[K _]]; [exact K|discriminate K].
      - intros m h v _ [K|[K _]]; [exact K|discriminate K].
      - intros o v [K|[K _]]; [exact K|discriminate K].
      - intros m h. rewrite get_del_other by discriminate. auto.
      - intros o. rewrite get_del_other by discriminate. auto. }
    split; [exact (Q_safe _ _ _ _ _ _ _ X)|]. split; [exact X|]. intros m h. cbn [app_op]. rewrite get_del. destruct (item_eqb_spec (KTmp m h) (KTmp n g)) as [Eq|Hne]; [congruence|].
    intros Hg. destruct (H2 m h Hg) as [Eq|Hin]; [injection Eq as -> ->; congruence|exact Hin].
Qed.

Definition no_tmp (d : disk) : Prop := forall n g, get (KTmp n g) d = None.
Lemma prune_arts_ok : forall w act L F K,
  hoare (fun d P => Q w act L K F d P /\ no_tmp d) (prune_arts w act F)
        (fun F' d P => Q w act L (K ++ F') [] d P /\ no_tmp d /\ forall a, In a F' <-> In a F /\ kept w act a).
Proof.
  intros w act L F. induction F as [|a F IH]; intros K; cbn [prune_arts].
  - apply hoare_ret. intros d P (H1 & H2) _. rewrite app_nil_r. split; [exact H1|]. split; [exact H2|]. intros a. split; [intros []|intros ([] & _)].
  - assert (KEEP : kept w act a -> hoare (fun d P => Q w act L K (a :: F) d P /\ no_tmp d) (run r' <- prune_arts w act F ;; ret (a :: r'))
        (fun F' d P => Q w act L (K ++ F') [] d P /\ no_tmp d /\ forall x, In x F' <-> In x (a :: F) /\ kept w act x)).
    { intros Hk. eapply hoare_bind.
      - eapply hoare_pre; [|apply (IH (K ++ [a]))]. intros d P ([A B C D E X U] & H2) _. split; [|exact H2]. constructor; rewrite <- ?app_assoc; cbn [app]; auto.
        intros x Hx. apply in_app_or in Hx as [Hx|[<-|[]]]; auto.
      - intros F'. apply hoare_ret. intros d P (H1 & H2 & H3) _. rewrite <- app_assoc in H1. cbn [app] in H1. split; [exact H1|]. split; [exact H2|].
        intros x. cbn [In]. rewrite H3. intuition (subst; auto). }
    destruct (kmem a act) eqn:Ek; [apply KEEP; left; now apply kmem_in|].
    destruct (w_open w (fst a) (snd a)) as [[|]|] eqn:Eo; [apply KEEP; right; exact Eo| |apply hoare_fail].
    assert (NK : ~ kept w act a). { intros [Hk|Hk]; [apply kmem_in in Hk; congruence|congruence]. }
    destruct a as [n g]. cbn [fst snd] in *.
    eapply hoare_bind with (Mid := fun _ d P => Q w act L K F d P /\ no_tmp d).
    2:{ intros _. eapply hoare_conseq; [apply (IH K)|auto|]. intros F' d P (H1 & H2 & H3) _. split; [exact H1|]. split; [exact H2|].
        intros x. rewrite H3. cbn [In]. split; [intros (Hx1 & Hx2); auto|]. intros ([<-|Hx1] & Hx2); [contradiction|auto]. }
    unfold rm_tree. apply hoare_get. intros d1. destruct (get (KArt n g) d1) eqn:E1; [|apply hoare_fail].
    eapply hoare_bind with (Mid := fun _ d P => Q w act L K ((n, g) :: F) d P /\ no_tmp d /\ get (KArt n g) d <> None).
    + eapply hoare_conseq with (Pre' := fun d P => Q w act L K ((n, g) :: F) d P /\ no_tmp d /\ get (KArt n g) d <> None) (Post' := fun _ d P => Q w act L K ((n, g) :: F) d P /\ no_tmp d /\ get (KArt n g) d <> None).
      * apply hoare_forM_const. intros x. apply hoare_step. intros d P (H1 & H2 & H3) Hf.
        assert (X : Q w act L K ((n, g) :: F) (app_op (OData (KArt n g) x) d) (poss_step (OData (KArt n g) x) d P)).
        { cbn [app_op poss_step]. apply (Q_frame w act L K ((n, g) :: F) d _ P); [| | | | |exact H1].
          - intros m v [Kv|[Kv _]]; [exact Kv|discriminate Kv].
          - intros m h v Hk [Kv|[Kv _]]; [exact Kv|]. injection Kv as -> ->. contradiction.
          - intros o v [Kv|[Kv _]]; [exact Kv|discriminate Kv].
          - intros m h. rewrite get_put. destruct (item_eqb_spec (KArt m h) (KArt n g)) as [Eq|_]; [injection Eq as -> ->; intros _; exact H3|auto].
          - intros o. rewrite get_put_other by discriminate. auto. }
        split; [exact (Q_safe _ _ _ _ _ _ _ X)|]. split; [exact X|]. split; [|cbn [app_op]; rewrite get_put_same; discriminate].
        intros m h. cbn [app_op]. rewrite get_put_other by discriminate. apply H2.
      * intros d P (-> & H1 & H2) _. split; [exact H1|]. split; [exact H2|]. congruence.
      * auto.
    + intros _. apply hoare_step. intros d P (H1 & H2 & H3) Hf.
      assert (X : Q w act L K F (app_op (ORemove (KArt n g)) d) (poss_step (ORemove (KArt n g)) d P)).
      { cbn [app_op poss_step]. destruct H1 as [A B C D E X U]. constructor.
        - intros m v [Kv|[Kv _]]; [exact (A m v Kv)|discriminate Kv].
        - exact B.
        - intros m h Hin Hk. apply (full_frame P).
          + intros v [Kv|[Kv _]]; [exact Kv|]. injection Kv as -> ->. contradiction.
          + intros o v _ [Kv|[Kv _]]; [exact Kv|discriminate Kv].
          + apply C; [|exact Hk]. apply in_app_or in Hin as [Hin|Hin]; apply in_or_app; [left|right; right]; exact Hin.
        - intros m h. rewrite get_del. destruct (item_eqb_spec (KArt m h) (KArt n g)) as [Eq|Hne]; [congruence|]. intros Hg. specialize (D m h Hg).
          apply in_app_or in D as [D|[D|D]]; apply in_or_app; [left; exact D| |right; exact D]. injection D as -> ->. congruence.
        - intros o. rewrite get_del_other by discriminate. apply E.
        - intros x Hx. specialize (X x Hx). apply in_app_or in X as [X|[X|X]]; apply in_or_app; [left; exact X| |right; exact X]. subst x. exfalso. apply NK. left. exact Hx.
        - intros m h Hm. destruct (U m h Hm) as (U1 & U2). split; [|exact U2]. apply in_app_or in U1 as [U1|[U1|U1]]; apply in_or_app; [left; exact U1| |right; exact U1]. injection U1 as -> ->. contradiction. }
      split; [exact (Q_safe _ _ _ _ _ _ _ X)|]. split; [exact X|]. intros m h. cbn [app_op]. rewrite get_del_other by discriminate. apply H2.
Qed.

Lemma required_in : forall d T req, required load d T = Ok req -> forall o, In o req <->
  exists n g img objs, In (n, g) T /\ get (KArt n g) d = Some img /\ objects_of load img = Ok objs /\ In o objs.
Proof.
  intros d T. induction T as [|[n g] T IH]; intros req H o; cbn [required] in H.
  - apply Ok_inj in H. subst req. split; [intros []|intros (n & g & img & objs & [] & _)].
  - cbn [fst snd] in H. destruct (get (KArt n g) d) as [img|] eqn:E; [|discriminate]. destruct (objects_of load img) as [objs| |] eqn:Eo; cbn [bind] in H; try discriminate.
    destruct (required load d T) as [rest| |]; cbn [bind] in H; try discriminate. apply Ok_inj in H. subst req. rewrite in_app_iff, (IH rest eq_refl). split.
    + intros [Ho|(m & h & i & os & H1 & H2 & H3 & H4)]; [exists n, g, img, objs|exists m, h, i, os]; cbn [In]; auto.
    + intros (m & h & i & os & [H1|H1] & H2 & H3 & H4); [|right; eauto 8]. injection H1 as -> ->. left. rewrite E in H2. apply Some_inj in H2. subst i. rewrite Eo in H3. apply Ok_inj in H3. now subst.
Qed.
(** every object in the list is needed by an artifact *)
Definition all_needed (T : list key) (L : list string) (d : disk) : Prop :=
  forall o, In o L -> exists n g img objs, In (n, g) T /\ get (KArt n g) d = Some img /\ objects_of load img = Ok objs /\ In o objs.
Lemma cfs_prune_ok : forall w act L T,
  hoare (fun d P => Q w act L T [] d P /\ no_tmp d) (cfs_prune load T L)
        (fun L' d P => J T L' d P /\ settled act P /\ incl act T /\ all_needed T L' d).
Proof.
  intros w act L T. unfold cfs_prune. apply hoare_get. intros d1. destruct (required load d1 T) as [req| |] eqn:Er; try apply hoare_fail.
  set (req' := filter (fun o => mem o L) req). set (L' := filter (fun o => mem o req') L).
  assert (INL : forall o, In o L' <-> In o L /\ In o req).
  { intros o. unfold L', req'. rewrite filter_In, mem_in, filter_In, mem_in. tauto. }
  set (Inv := fun (rest : list string) (d : disk) (P : poss) =>
    (forall n g, In (n, g) T -> full P L' n g) /\ settled act P /\ incl act T /\ no_tmp d /\ (forall n g, get (KArt n g) d = get (KArt n g) d1) /\
    (forall n g, get (KArt n g) d <> None -> In (n, g) T) /\ (forall o, get (KObj o) d <> None -> In o L' \/ In o rest) /\ (forall o, In o rest -> In o L /\ ~ In o L') /\ forall n g, inuse n g -> In (n, g) T).
  eapply hoare_bind with (Mid := fun _ => Inv []).
  - eapply hoare_pre; [|apply (hoare_forM _ Inv)].
    + intros d P (-> & H1 & H2) (F1 & F2 & F3). destruct H1 as [A B C D E X U]. rewrite app_nil_r in *. unfold Inv.
      split; [|split; [exact A|]; split; [exact X|]; split; [exact H2|]; split; [reflexivity|]; split; [|split; [|split]]].
      * intros n g Hin. destruct (C n g Hin (B _ Hin)) as (img & objs & C1 & C2 & C3 & C4). exists img, objs. split; [exact C1|]. split; [exact C2|]. split; [exact C3|].
        intros o Ho. destruct (C4 o Ho) as [C5 C6]. split; [|exact C6]. apply INL. split; [exact C5|]. apply (required_in _ _ _ Er).
        exists n, g, img, objs. split; [exact Hin|]. split; [exact (C1 _ (F3 _))|]. auto.
      * exact D.
      * intros o Ho. specialize (E o Ho). destruct (mem o req') eqn:Em; [left|right].
        -- unfold L'. apply filter_In. auto.
        -- apply filter_In. rewrite Em. auto.
      * intros o Ho. apply filter_In in Ho as [Ho1 Ho2]. split; [exact Ho1|]. intros X1. unfold L' in X1. apply filter_In in X1 as [_ X1]. rewrite X1 in Ho2. discriminate Ho2.
      * intros n g Hu. exact (proj1 (U n g Hu)).
    + intros o rest. unfold unlinkM. apply hoare_get. intros d2. destruct (get (KObj o) d2) eqn:E2; [|apply hoare_fail]. apply hoare_step.
      intros d P (-> & I1 & I2 & I3 & I4 & I5 & I6 & I7 & I8 & I9) Hf. cbn [app_op poss_step].
      assert (X1 : forall n g, In (n, g) T -> full (fun j v => P j v \/ j = KObj o /\ v = None) L' n g).
      { intros n g Hin. apply (full_frame P); [| |exact (I1 n g Hin)].
        - intros v [Kv|[Kv _]]; [exact Kv|discriminate Kv].
        - intros x v Hx [Kv|[Kv _]]; [exact Kv|]. injection Kv as ->. exfalso. exact (proj2 (I8 o (or_introl eq_refl)) Hx). }
      assert (X2 : settled act (fun j v => P j v \/ j = KObj o /\ v = None)).
      { intros n v [Kv|[Kv _]]; [exact (I2 n v Kv)|discriminate Kv]. }
      split.
      * apply (J_safe T L' d2); [exact X1| |exact I9]. intros n g Hp. apply X2 in Hp. symmetry in Hp. apply active_in in Hp. apply I3, Hp.
      * unfold Inv. split; [exact X1|]. split; [exact X2|]. split; [exact I3|]. split; [|split; [|split; [|split; [|split; [|exact I9]]]]].
        -- intros n g. rewrite get_del_other by discriminate. apply I4.
        -- intros n g. rewrite get_del_other by discriminate. apply I5.
        -- intros n g. rewrite get_del_other by discriminate. apply I6.
        -- intros x. rewrite get_del. destruct (item_eqb_spec (KObj x) (KObj o)) as [Eq|Hne]; [congruence|]. intros Hg.
           destruct (I7 x Hg) as [?|[?|?]]; auto. congruence.
        -- intros x Hx. apply I8. right. exact Hx.
  - intros _. eapply hoare_bind; [apply hoare_call|]. intros u. apply hoare_ret. intros d P (I1 & I2 & I3 & I4 & I5 & I6 & I7 & I8 & I9) Hf.
    assert (N : all_needed T L' d).
    { intros o Ho. apply INL in Ho as [_ Ho]. apply (required_in _ _ _ Er) in Ho. destruct Ho as (n & g & img & objs & H1 & H2 & H3). exists n, g, img, objs. rewrite I5. auto. }
    split; [|split; [exact I2|split; [exact I3|exact N]]]. constructor; auto.
    + intros o Ho. destruct (N o Ho) as (n & g & img & objs & H1 & H2 & H3 & H4). destruct (I1 n g H1) as (img' & objs' & C1 & C2 & C3 & C4).
      destruct Hf as (_ & _ & Hc). pose proof (C1 _ (Hc _)) as Y. rewrite H2 in Y. apply Some_inj in Y. subst img'. rewrite H3 in C3. apply Ok_inj in C3. subst objs'. apply C4, H4.
    + intros n g Hp. apply I2 in Hp. symmetry in Hp. apply active_in in Hp. apply I3, Hp.
    + intros o Ho. destruct (I7 o Ho) as [?|[]]; auto.
Qed.

Definition Pre_prune (w : world) (r : repo) (d : disk) (P : poss) : Prop :=
  settled (r_act r) P /\ incl (r_act r) (r_arts r) /\
  (forall n g, In (n, g) (r_arts r) -> kept w (r_act r) (n, g) -> full P (r_local r) n g) /\
  (forall n g, get (KArt n g) d <> None -> In (n, g) (r_arts r)) /\ (forall o, get (KObj o) d <> None -> In o (r_local r)) /\
  (forall n g, inuse n g -> In (n, g) (r_arts r) /\ kept w (r_act r) (n, g)).
Definition Post_prune (w : world) (r r' : repo) (d : disk) (P : poss) : Prop :=
  J (r_arts r') (r_local r') d P /\ settled (r_act r') P /\ incl (r_act r') (r_arts r') /\ all_needed (r_arts r') (r_local r') d /\
  r_act r' = r_act r /\ forall a, In a (r_arts r') <-> In a (r_arts r) /\ kept w (r_act r) a.
Lemma prune_ok : forall w r, hoare (Pre_prune w r) (prune load w r) (Post_prune w r).
Proof.
  intros w r. unfold prune. apply hoare_get. intros d1.
  eapply hoare_bind with (Mid := fun _ d P => Q w (r_act r) (r_local r) [] (r_arts r) d P /\ no_tmp d).
  - eapply hoare_pre; [|apply prune_tmps_ok]. intros d P (-> & A & B & C & D & E & U) _. split.
    + constructor; cbn [app]; auto. intros a [].
    + intros n g H. now apply in_tmps.
  - intros _. eapply hoare_bind; [apply (prune_arts_ok w (r_act r) (r_local r) (r_arts r) [])|]. intros T. cbn [app].
    eapply hoare_pure with (X := forall a, In a T <-> In a (r_arts r) /\ kept w (r_act r) a); [intros d P (_ & _ & H); exact H|]. intros HT.
    eapply hoare_bind.
    + eapply hoare_pre; [|apply (cfs_prune_ok w (r_act r) (r_local r) T)]. intros d P (H1 & H2 & _) _. auto.
    + intros L'. apply hoare_ret. intros d P (H1 & H2 & H3 & H4) _. unfold Post_prune. cbn [r_arts r_act r_local]. auto 8.
Qed.

(** ** the links *)
Lemma J_frame_link : forall T L n (d d' : disk) (P P' : poss),
  (forall k v, k <> KLink n -> P' k v -> P k v) -> (forall g, P' (KLink n) (Some g) -> In (n, g) T) ->
  (forall k, k <> KLink n -> get k d' = get k d) -> J T L d P -> J T L d' P'.
Proof.
  intros T L n d d' P P' H1 H2 H3 [A B C D E F U]. constructor.
  - intros m g Hin. apply (full_frame P); [| |exact (A m g Hin)]; intros; apply H1; auto; discriminate.
  - intros o Ho v Hv. apply (B o Ho). apply H1; [discriminate|exact Hv].
  - intros m g Hp. destruct (String.string_dec m n) as [->|Hne]; [exact (H2 g Hp)|]. apply C. apply H1; [congruence|exact Hp].
  - intros m g. rewrite H3 by discriminate. apply D.
  - intros m g. rewrite H3 by discriminate. apply E.
  - intros o. rewrite H3 by discriminate. apply F.
  - exact U.
Qed.
Lemma J_is_safe : forall T L d P, J T L d P -> safe P.
Proof. intros T L d P H. apply (J_safe T L d); [exact (j_full _ _ _ _ H)|exact (j_link _ _ _ _ H)|exact (j_use _ _ _ _ H)]. Qed.
Lemma commit_name_ok : forall T L act n rest, incl act T ->
  hoare (fun d P => J T L d P /\ forall m, In m (map fst T) -> In m (n :: rest) \/ get (KLink m) d = active act m)
        (commit_name act n)
        (fun _ d P => J T L d P /\ forall m, In m (map fst T) -> In m rest \/ get (KLink m) d = active act m).
Proof.
  intros T L act n rest Hact. unfold commit_name. apply hoare_get. intros d1.
  assert (DONE : forall d P, d = d1 /\ J T L d1 P /\ (forall m, In m (map fst T) -> In m (n :: rest) \/ get (KLink m) d1 = active act m) -> get (KLink n) d1 = active act n ->
    J T L d P /\ forall m, In m (map fst T) -> In m rest \/ get (KLink m) d = active act m).
  { intros d P (-> & H1 & H2) E. split; [exact H1|]. intros m Hm. destruct (H2 m Hm) as [[<-|?]|?]; auto. }
  destruct (active act n) as [g|] eqn:Ea.
  - pose proof (Hact _ (active_in _ _ _ Ea)) as Hin. destruct (get (KArt n g) d1) as [img|] eqn:E1.
    2:{ apply hoare_abort. intros d P (-> & H1 & _) (_ & _ & Hc). destruct (j_full _ _ _ _ H1 _ _ Hin) as (img & objs & C1 & _). specialize (C1 _ (Hc _)). congruence. }
    assert (SET : hoare (fun d P => d = d1 /\ J T L d1 P /\ forall m, In m (map fst T) -> In m (n :: rest) \/ get (KLink m) d1 = active act m)
        (step (OData (KLink n) g)) (fun _ d P => J T L d P /\ forall m, In m (map fst T) -> In m rest \/ get (KLink m) d = active act m)).
    { apply hoare_step. intros d P (-> & H1 & H2) Hf. cbn [app_op poss_step].
      assert (X : J T L (put (KLink n) g d1) (fun j v => P j v \/ j = KLink n /\ v = Some g)).
      { apply (J_frame_link T L n d1 _ P); [| | |exact H1].
        - intros k v Hk [Kv|[Kv _]]; [exact Kv|congruence].
        - intros h [Kv|[_ Kv]]; [exact (j_link _ _ _ _ H1 _ _ Kv)|]. injection Kv as ->. exact Hin.
        - intros k Hk. now apply get_put_other. }
      split; [exact (J_is_safe _ _ _ _ X)|]. split; [exact X|]. intros m Hm. destruct (String.string_dec m n) as [->|Hne].
      - right. rewrite get_put_same. congruence.
      - rewrite get_put_other by congruence. destruct (H2 m Hm) as [[?|?]|?]; auto. congruence. }
    destruct (get (KLink n) d1) as [h|] eqn:El; [|exact SET]. destruct (String.eqb_spec h g) as [->|Hne]; [|exact SET].
    apply hoare_ret. intros d P H _. apply DONE; [exact H|congruence].
  - destruct (get (KLink n) d1) as [h|] eqn:El; [|apply hoare_ret; intros d P H _; apply DONE; [exact H|congruence]].
    apply hoare_step. intros d P (-> & H1 & H2) Hf. cbn [app_op poss_step].
    assert (X : J T L (del (KLink n) d1) (fun j v => P j v \/ j = KLink n /\ v = None)).
    { apply (J_frame_link T L n d1 _ P); [| | |exact H1].
      - intros k v Hk [Kv|[Kv _]]; [exact Kv|congruence].
      - intros g [Kv|[_ Kv]]; [exact (j_link _ _ _ _ H1 _ _ Kv)|discriminate].
      - intros k Hk. now apply get_del_other. }
    split; [exact (J_is_safe _ _ _ _ X)|]. split; [exact X|]. intros m Hm. destruct (String.string_dec m n) as [->|Hne].
    + right. rewrite get_del_same. congruence.
    + rewrite get_del_other by congruence. destruct (H2 m Hm) as [[?|?]|?]; auto. congruence.
Qed.
Lemma J_sync : forall T L d P, J T L d P -> facts d P -> J T L d (on_disk d).
Proof.
  intros T L d P [A B C D E F U] (_ & _ & Hc). constructor; auto.
  - intros n g Hin. apply (full_frame P); [| |exact (A n g Hin)].
    + intros v ->. apply Hc.
    + intros o v _ ->. apply Hc.
  - intros o Ho v ->. apply (B o Ho). apply Hc.
  - intros n g Hp. apply C. unfold on_disk in Hp. rewrite Hp. apply Hc.
Qed.
Lemma commit_ok : forall T L act, incl act T ->
  hoare (J T L) (commit T act) (fun _ d P => J T L d P /\ settled act P).
Proof.
  intros T L act Hact. unfold commit.
  eapply hoare_bind with (Mid := fun _ d P => J T L d P /\ forall m, In m (map fst T) -> In m [] \/ get (KLink m) d = active act m).
  - eapply hoare_pre; [|apply (hoare_forM _ (fun rest d P => J T L d P /\ forall m, In m (map fst T) -> In m rest \/ get (KLink m) d = active act m))].
    + intros d P H _. split; [exact H|]. intros m Hm. left. apply nodup_In, Hm.
    + intros n rest. now apply commit_name_ok.
  - intros _. apply hoare_step. intros d P (H1 & H2) Hf. cbn [app_op poss_step]. pose proof (J_sync _ _ _ _ H1 Hf) as X. split; [exact (J_is_safe _ _ _ _ X)|]. split; [exact X|].
    intros n v ->. destruct (get (KLink n) d) as [g|] eqn:E.
    + pose proof (j_link _ _ _ _ X n g (eq_sym E)) as Hin. apply (in_map fst) in Hin. cbn [fst] in Hin. destruct (H2 n Hin) as [[]|H2']. congruence.
    + destruct (active act n) as [g|] eqn:Ea; [|reflexivity]. pose proof (Hact _ (active_in _ _ _ Ea)) as Hin. apply (in_map fst) in Hin. cbn [fst] in Hin. destruct (H2 n Hin) as [[]|H2']. congruence.
Qed.

(** ** a new artifact *)
(** while [n, g] is being copied: its temporary entry and the objects in [X] may be there *)
Record I (T : list key) (L X : list string) (n g : string) (d : disk) (P : poss) : Prop := mk_I {
  i_full : forall m h, In (m, h) T -> full P L m h;
  i_local : forall o, In o L -> sure P o;
  i_link : forall m h, P (KLink m) (Some h) -> In (m, h) T;
  i_art : forall m h, get (KArt m h) d <> None -> In (m, h) T;
  i_tmp : forall m h, (m, h) <> (n, g) -> get (KTmp m h) d = None;
  i_obj : forall o, get (KObj o) d <> None -> In o L \/ In o X;
  i_use : forall m h, inuse m h -> In (m, h) T
}.
Lemma I_safe : forall T L X n g d P, I T L X n g d P -> safe P.
Proof. intros T L X n g d P H. apply (J_safe T L d); [exact (i_full _ _ _ _ _ _ _ H)|exact (i_link _ _ _ _ _ _ _ H)|exact (i_use _ _ _ _ _ _ _ H)]. Qed.
Lemma I_tmp : forall T L X n g x d P, I T L X n g d P -> I T L X n g (app_op (OData (KTmp n g) x) d) (poss_step (OData (KTmp n g) x) d P).
Proof.
  intros T L X n g x d P [A B C D E F U]. cbn [app_op poss_step]. constructor.
  - intros m h Hin. apply (full_frame P); [| |exact (A m h Hin)].
    + intros v [Kv|[Kv _]]; [exact Kv|discriminate].
    + intros o v _ [Kv|[Kv _]]; [exact Kv|discriminate].
  - intros o Ho v [Kv|[Kv _]]; [exact (B o Ho v Kv)|discriminate].
  - intros m h [Kv|[Kv _]]; [exact (C m h Kv)|discriminate].
  - intros m h. rewrite get_put_other by discriminate. apply D.
  - intros m h Hne. rewrite get_put_other by congruence. now apply E.
  - intros o. rewrite get_put_other by discriminate. apply F.
  - exact U.
Qed.
Lemma I_obj : forall T L X n g o x d P, ~ In o L -> In o X -> I T L X n g d P -> I T L X n g (app_op (OData (KObj o) x) d) (poss_step (OData (KObj o) x) d P).
Proof.
  intros T L X n g o x d P Ho Hx [A B C D E F U]. cbn [app_op poss_step]. constructor.
  - intros m h Hin. apply (full_frame P); [| |exact (A m h Hin)].
    + intros v [Kv|[Kv _]]; [exact Kv|discriminate].
    + intros y v Hy [Kv|[Kv _]]; [exact Kv|]. injection Kv as ->. contradiction.
  - intros y Hy v [Kv|[Kv _]]; [exact (B y Hy v Kv)|]. injection Kv as ->. contradiction.
  - intros m h [Kv|[Kv _]]; [exact (C m h Kv)|discriminate].
  - intros m h. rewrite get_put_other by discriminate. apply D.
  - intros m h Hne. rewrite get_put_other by discriminate. now apply E.
  - intros y. rewrite get_put. destruct (item_eqb_spec (KObj y) (KObj o)) as [Eq|Hne]; [injection Eq as ->; auto|apply F].
  - exact U.
Qed.
Lemma I_more : forall T L X Y n g d P, incl X Y -> I T L X n g d P -> I T L Y n g d P.
Proof. intros T L X Y n g d P H [A B C D E F U]. constructor; auto. intros o Ho. destruct (F o Ho); auto. Qed.

Lemma copy_object_ok : forall w b T L X n g o img rest,
  (forall o c, lookup b o = Some c -> right o c) -> ~ In o L -> In o X -> ~ In o rest ->
  hoare (fun d P => I T L X n g d P /\ get (KTmp n g) d = Some img /\ (forall x, In x X -> In x (o :: rest) \/ exists c, get (KObj x) d = Some c /\ right x c))
        (copy_object w b o)
        (fun _ d P => I T L X n g d P /\ get (KTmp n g) d = Some img /\ (forall x, In x X -> In x rest \/ exists c, get (KObj x) d = Some c /\ right x c)).
Proof.
  intros w b T L X n g o img rest Hb Ho Hx Hr. unfold copy_object. apply hoare_get. intros d1.
  destruct (get (KObj o) d1) eqn:E1; [apply hoare_fail|]. destruct (lookup b o) as [c|] eqn:El; [|apply hoare_fail].
  set (Inv := fun (d : disk) (P : poss) => I T L X n g d P /\ get (KTmp n g) d = Some img /\ (forall x, In x X -> In x (o :: rest) \/ exists c, get (KObj x) d = Some c /\ right x c)).
  eapply hoare_bind with (Mid := fun _ => Inv).
  - eapply hoare_pre; [|apply (hoare_forM_const _ Inv)].
    + intros d P (-> & H) _. exact H.
    + intros x. apply hoare_step. intros d P (H1 & H2 & H3) _. pose proof (I_obj T L X n g o x d P Ho Hx H1) as Y. split; [exact (I_safe _ _ _ _ _ _ _ Y)|]. split; [exact Y|]. cbn [app_op]. split.
      * rewrite get_put_other by discriminate. exact H2.
      * intros y Hy. destruct (String.string_dec y o) as [->|Hne]; [left; left; reflexivity|]. rewrite get_put_other by congruence. exact (H3 y Hy).
  - intros _. apply hoare_step. intros d P (H1 & H2 & H3) _. pose proof (I_obj T L X n g o c d P Ho Hx H1) as Y. split; [exact (I_safe _ _ _ _ _ _ _ Y)|]. split; [exact Y|]. cbn [app_op]. split.
    + rewrite get_put_other by discriminate. exact H2.
    + intros y Hy. destruct (String.string_dec y o) as [->|Hne]; [right; exists c; rewrite get_put_same; auto|]. rewrite get_put_other by congruence. destruct (H3 y Hy) as [[?|?]|?]; auto. congruence.
Qed.

(** what is known when the image and its objects are there *)
Definition copied (T : list key) (L : list string) (i : image) (L' : list string) (d : disk) (P : poss) : Prop :=
  exists objs X, objects_of load (i_img i) = Ok objs /\ L' = L ++ X /\ (forall o, In o X -> In o objs) /\ I T L X (i_name i) (i_digest i) d P /\ get (KTmp (i_name i) (i_digest i)) d = Some (i_img i) /\
    (forall o, In o X -> exists c, get (KObj o) d = Some c /\ right o c) /\ (forall o, In o objs -> In o L \/ In o X).
Lemma cfs_install_ok : forall w b T L i, (forall o c, lookup b o = Some c -> right o c) ->
  hoare (I T L [] (i_name i) (i_digest i)) (cfs_install load w b L i) (copied T L i).
Proof.
  intros w b T L i Hb. unfold cfs_install.
  eapply hoare_bind with (Mid := fun _ => I T L [] (i_name i) (i_digest i)).
  { apply hoare_forM_const. intros x. apply hoare_step. intros d P H _. pose proof (I_tmp T L [] _ _ x d P H) as Y. split; [exact (I_safe _ _ _ _ _ _ _ Y)|exact Y]. }
  intros _. eapply hoare_bind with (Mid := fun _ d P => I T L [] (i_name i) (i_digest i) d P /\ get (KTmp (i_name i) (i_digest i)) d = Some (i_img i)).
  { apply hoare_step. intros d P H _. pose proof (I_tmp T L [] _ _ (i_img i) d P H) as Y. split; [exact (I_safe _ _ _ _ _ _ _ Y)|]. split; [exact Y|]. cbn [app_op]. apply get_put_same. }
  intros _. apply hoare_get. intros d1.
  eapply hoare_pure with (X := get (KTmp (i_name i) (i_digest i)) d1 = Some (i_img i)); [intros d P (-> & _ & H); exact H|]. intros Et. rewrite Et.
  destruct (objects_of load (i_img i)) as [objs| |] eqn:Eo; try apply hoare_fail.
  set (X := nodup string_dec (filter (fun o => negb (mem o L)) objs)).
  assert (HX : forall o, In o X <-> In o objs /\ ~ In o L).
  { intros o. unfold X. rewrite nodup_In, filter_In, negb_true_iff. rewrite <- (mem_in o L). destruct (mem o L); intuition congruence. }
  set (Inv := fun (rest : list string) (d : disk) (P : poss) => (NoDup rest /\ incl rest X) /\ I T L X (i_name i) (i_digest i) d P /\ get (KTmp (i_name i) (i_digest i)) d = Some (i_img i) /\
     (forall x, In x X -> In x rest \/ exists c, get (KObj x) d = Some c /\ right x c)).
  eapply hoare_bind with (Mid := fun _ => Inv []).
  - eapply hoare_pre; [|apply (hoare_forM _ Inv)].
    + intros d P (-> & H1 & H2) _. split; [split; [apply NoDup_nodup|apply incl_refl]|]. split; [apply (I_more T L []); [intros x []|exact H1]|]. split; [exact Et|]. auto.
    + intros o rest. eapply hoare_pure with (X := NoDup (o :: rest) /\ incl (o :: rest) X); [intros d P (H & _); exact H|]. intros (H1 & H2).
      eapply hoare_bind; [apply hoare_call|]. intros u. inversion H1 as [|? ? N1 N2]; subst.
      pose proof (proj1 (HX o) (H2 o (or_introl eq_refl))) as (Ho1 & Ho2).
      eapply hoare_conseq; [apply (copy_object_ok w b T L X (i_name i) (i_digest i) o (i_img i) rest Hb Ho2 (H2 o (or_introl eq_refl)) N1)| |].
      * intros d P (_ & H) _. exact H.
      * intros u' d P H Hf. split; [|exact H]. split; [exact N2|]. intros x Hx. apply H2. right. exact Hx.
  - intros _. apply hoare_ret. intros d P (_ & H1 & H2 & H3) _. exists objs, X. split; [exact Eo|]. split; [reflexivity|]. split; [intros o Ho; apply HX, Ho|].
    split; [exact H1|]. split; [exact H2|]. split.
    + intros o Ho. destruct (H3 o Ho) as [[]|?]; auto.
    + intros o Ho. destruct (mem o L) eqn:Em; [left; now apply mem_in|right]. apply HX. split; [exact Ho|]. intros Hm. apply mem_in in Hm. congruence.
Qed.
Lemma I_sync : forall T L X n g d P, I T L X n g d P -> facts d P -> I T L X n g d (on_disk d).
Proof.
  intros T L X n g d P [A B C D E F U] (_ & _ & Hc). constructor; auto.
  - intros m h Hin. apply (full_frame P); [| |exact (A m h Hin)].
    + intros v ->. apply Hc.
    + intros o v _ ->. apply Hc.
  - intros o Ho v ->. apply (B o Ho). apply Hc.
  - intros m h Hp. apply C. unfold on_disk in Hp. rewrite Hp. apply Hc.
Qed.
Lemma art_install_ok : forall w b T L i, imgok (i_name i) (i_digest i) (i_img i) -> (forall o c, lookup b o = Some c -> right o c) -> ~ In (ikey i) T ->
  hoare (J T L) (art_install load w b L i) (fun L' d P => J (T ++ [ikey i]) L' d P).
Proof.
  intros w b T L i Hi Hb Hnew. unfold art_install. apply hoare_get. intros d1.
  set (n := i_name i) in *. set (g := i_digest i) in *. change (ikey i) with (n, g) in *.
  destruct (get (KArt n g) d1) eqn:E1.
  { apply hoare_abort. intros d P (-> & H) _. apply Hnew. apply (j_art _ _ _ _ H). congruence. }
  destruct (get (KTmp n g) d1) eqn:E2.
  { apply hoare_abort. intros d P (-> & H) _. rewrite (j_tmp _ _ _ _ H) in E2. discriminate. }
  eapply hoare_bind.
  { eapply hoare_pre; [|apply (cfs_install_ok w b T L i Hb)]. intros d P (-> & [A B C D E F U]) _. constructor; auto. }
  intros L'. fold n g. eapply hoare_bind with (Mid := fun _ d P => copied T L i L' d P /\ forall k v, P k v -> v = get k d).
  { apply hoare_step. intros d P (objs & X & H1 & H2 & H3 & H4 & H5 & H6 & H7) Hf. cbn [app_op poss_step]. pose proof (I_sync _ _ _ _ _ _ _ H4 Hf) as Y. split; [exact (I_safe _ _ _ _ _ _ _ Y)|].
    split; [|auto]. exists objs, X. auto 10. }
  intros _.
  (* after the rename *)
  set (Post1 := fun (d : disk) (P : poss) => exists objs X, objects_of load (i_img i) = Ok objs /\ L' = L ++ X /\ (forall o, In o objs -> In o (L ++ X)) /\
     (forall m h, In (m, h) T -> full P L m h) /\ (forall o, In o (L ++ X) -> sure P o) /\ (forall m h, P (KLink m) (Some h) -> In (m, h) T) /\
     (forall m h, get (KArt m h) d <> None -> In (m, h) (T ++ [(n, g)])) /\ (forall m h, get (KTmp m h) d = None) /\ (forall o, get (KObj o) d <> None -> In o (L ++ X)) /\
     get (KArt n g) d = Some (i_img i) /\ (forall v, P (KArt n g) v -> v = None \/ v = Some (i_img i)) /\ forall m h, inuse m h -> In (m, h) T).
  eapply hoare_bind with (Mid := fun _ => Post1).
  { apply hoare_step. intros d P ((objs & X & H1 & H2 & H3 & H4 & H5 & H6 & H7) & Hd) (_ & _ & Hc). cbn [app_op poss_step]. fold n g in H4, H5. rewrite H5.
    set (P' := fun (j : item) (v : option string) => P j v \/ j = KTmp n g /\ v = None \/ j = KArt n g /\ P (KTmp n g) v /\ v <> None).
    assert (Y1 : forall m h, In (m, h) T -> full P' L m h).
    { intros m h Hin. apply (full_frame P); [| |exact (i_full _ _ _ _ _ _ _ H4 m h Hin)].
      - intros v [Kv|[[Kv _]|[Kv _]]]; [exact Kv|discriminate|]. injection Kv as -> ->. contradiction.
      - intros o v _ [Kv|[[Kv _]|[Kv _]]]; [exact Kv|discriminate|discriminate]. }
    assert (Y2 : forall m h, P' (KLink m) (Some h) -> In (m, h) T).
    { intros m h [Kv|[[Kv _]|[Kv _]]]; [exact (i_link _ _ _ _ _ _ _ H4 m h Kv)|discriminate|discriminate]. }
    split; [apply (J_safe T L d); [assumption|assumption|exact (i_use _ _ _ _ _ _ _ H4)]|]. exists objs, X. split; [exact H1|]. split; [exact H2|].
    split; [intros o Ho; apply in_or_app; exact (H7 o Ho)|]. split; [exact Y1|]. split; [|split; [exact Y2|split; [|split; [|split; [|split; [|split; [|exact (i_use _ _ _ _ _ _ _ H4)]]]]]]].
    - intros o Ho v [Kv|[[Kv _]|[Kv _]]]; [|discriminate|discriminate]. apply in_app_or in Ho as [Ho|Ho]; [exact (i_local _ _ _ _ _ _ _ H4 o Ho v Kv)|].
      apply Hd in Kv. subst v. destruct (H6 o Ho) as (c & Hc1 & Hc2). eauto.
    - intros m h. rewrite get_put. destruct (item_eqb_spec (KArt m h) (KArt n g)) as [Eq|Hne].
      + injection Eq as -> ->. intros _. apply in_or_app. right. left. reflexivity.
      + rewrite get_del_other by discriminate. intros Hg. apply in_or_app. left. exact (i_art _ _ _ _ _ _ _ H4 m h Hg).
    - intros m h. rewrite get_put_other by discriminate. rewrite get_del. destruct (item_eqb_spec (KTmp m h) (KTmp n g)) as [Eq|Hne]; [reflexivity|].
      apply (i_tmp _ _ _ _ _ _ _ H4). congruence.
    - intros o. rewrite get_put_other by discriminate. rewrite get_del_other by discriminate. intros Ho. apply in_or_app. exact (i_obj _ _ _ _ _ _ _ H4 o Ho).
    - apply get_put_same.
    - intros v [Kv|[[Kv _]|[_ [Kv Kn]]]]; [|discriminate|].
      + apply Hd in Kv. left. destruct (get (KArt n g) d) eqn:Eg; [|exact Kv]. exfalso. apply Hnew. apply (i_art _ _ _ _ _ _ _ H4). congruence.
      + apply Hd in Kv. rewrite H5 in Kv. right. exact Kv. }
  intros _. eapply hoare_bind with (Mid := fun _ d P => J (T ++ [(n, g)]) L' d P).
  { apply hoare_step. intros d P (objs & X & H1 & -> & H3 & H4 & H5 & H6 & H7 & H8 & H9 & H10 & H11 & H12) (_ & _ & Hc). cbn [app_op poss_step].
    set (P' := fun (j : item) (v : option string) => match j with KObj _ => P j v | KLink _ => v = get j d | _ => match get j d with Some _ => P j v /\ v <> None | None => v = None end end).
    assert (Y0 : forall k v, P' k v -> P k v).
    { intros k v. unfold P'. destruct k as [o|m h|m h|m].
      - intros K. exact K.
      - destruct (get (KArt m h) d) eqn:Eg; [intros [K _]; exact K|]. intros ->. rewrite <- Eg. apply Hc.
      - destruct (get (KTmp m h) d) eqn:Eg; [intros [K _]; exact K|]. intros ->. rewrite <- Eg. apply Hc.
      - intros ->. apply Hc. }
    assert (Y : J (T ++ [(n, g)]) (L ++ X) d P').
    { constructor.
      - intros m h Hin. apply in_app_or in Hin as [Hin|[Hin|[]]].
        + destruct (H4 m h Hin) as (img & os & C1 & C2 & C3 & C4). exists img, os. split; [intros v Hv; apply C1, Y0, Hv|]. split; [exact C2|]. split; [exact C3|].
          intros o Ho. destruct (C4 o Ho) as (C5 & C6). split; [apply in_or_app; left; exact C5|]. intros v Hv. apply C6, Y0, Hv.
        + injection Hin as <- <-. exists (i_img i), objs. split; [|split; [exact Hi|split; [exact H1|]]].
          * intros v Hv. unfold P' in Hv. rewrite H10 in Hv. destruct Hv as (Hv & Hn). destruct (H11 v Hv) as [-> | ->]; [congruence|reflexivity].
          * intros o Ho. split; [exact (H3 o Ho)|]. intros v Hv. apply (H5 o (H3 o Ho)). apply Y0, Hv.
      - intros o Ho v Hv. apply (H5 o Ho). apply Y0, Hv.
      - intros m h Hp. apply in_or_app. left. apply H6. apply Y0, Hp.
      - exact H7.
      - exact H8.
      - exact H9.
      - intros m h Hm. apply in_or_app. left. exact (H12 m h Hm). }
    split; [exact (J_is_safe _ _ _ _ Y)|exact Y]. }
  intros _. apply hoare_ret. auto.
Qed.

(** ** all plans *)
Definition RJ (r : repo) (d : disk) (P : poss) : Prop := J (r_arts r) (r_local r) d P /\ settled (r_act r) P /\ incl (r_act r) (r_arts r).
Definition plan_act (keep : list string) (act : list key) (i : image) : list key := activate (ikey i) (filter (fun a => mem (fst a) keep) act).
Lemma activate_incl : forall a act T, In a T -> incl act T -> incl (activate a act) T.
Proof. intros a act T Ha H x [<-|Hx]; [exact Ha|]. apply filter_In in Hx as [Hx _]. now apply H. Qed.
Lemma filter_incl : forall (f : key -> bool) act T, incl act T -> incl (filter f act) T.
Proof. intros f act T H x Hx. apply filter_In in Hx as [Hx _]. now apply H. Qed.
Lemma handle_plan_ok : forall w b keep r i, imgok (i_name i) (i_digest i) (i_img i) -> (forall o c, lookup b o = Some c -> right o c) ->
  hoare (RJ r) (handle_plan load w b keep r i) (fun r' d P => RJ r' d P /\ r_act r' = plan_act keep (r_act r) i).
Proof.
  intros w b keep r i Hi Hb. unfold handle_plan. set (act1 := filter (fun a => mem (fst a) keep) (r_act r)).
  eapply hoare_pure with (X := incl (r_act r) (r_arts r)); [intros d P (_ & _ & H); exact H|]. intros Hact.
  assert (Hact1 : incl act1 (r_arts r)) by (apply filter_incl, Hact).
  eapply hoare_bind; [eapply hoare_pre; [|apply (commit_ok (r_arts r) (r_local r) act1 Hact1)]; intros d P (H & _) _; exact H|]. intros u.
  destruct (kmem (ikey i) (r_arts r)) eqn:Ek.
  - apply kmem_in in Ek. assert (Hact2 : incl (activate (ikey i) act1) (r_arts r)) by (apply activate_incl; assumption).
    eapply hoare_bind; [eapply hoare_pre; [|apply (commit_ok (r_arts r) (r_local r) _ Hact2)]; intros d P (H & _) _; exact H|]. intros u'.
    apply hoare_ret. intros d P (H1 & H2) _. unfold RJ. cbn [r_arts r_act r_local]. auto.
  - assert (Hn : ~ In (ikey i) (r_arts r)) by (intros X; apply kmem_in in X; congruence).
    eapply hoare_bind; [eapply hoare_pre; [|apply (art_install_ok w b (r_arts r) (r_local r) i Hi Hb Hn)]; intros d P (H & _) _; exact H|]. intros L'. cbn beta.
    assert (Hact2 : incl (activate (ikey i) act1) (r_arts r ++ [ikey i])).
    { apply activate_incl; [apply in_or_app; right; left; reflexivity|]. intros x Hx. apply in_or_app. left. now apply Hact1. }
    eapply hoare_bind; [apply (commit_ok (r_arts r ++ [ikey i]) L' _ Hact2)|]. intros u'.
    apply hoare_ret. intros d P (H1 & H2) _. unfold RJ. cbn [r_arts r_act r_local]. auto.
Qed.
Lemma handle_plans_ok : forall w b keep l r, Forall (fun i => imgok (i_name i) (i_digest i) (i_img i)) l -> (forall o c, lookup b o = Some c -> right o c) ->
  hoare (RJ r) (handle_plans load w b keep r l) (fun r' d P => RJ r' d P /\ r_act r' = fold_left (plan_act keep) l (r_act r)).
Proof.
  intros w b keep l. induction l as [|i l IH]; intros r Hi Hb; cbn [handle_plans fold_left].
  - apply hoare_ret. auto.
  - inversion Hi as [|? ? Hi1 Hi2]; subst. eapply hoare_bind; [apply (handle_plan_ok w b keep r i Hi1 Hb)|]. intros r1. cbn beta.
    eapply hoare_pure with (X := r_act r1 = plan_act keep (r_act r) i); [intros d P (_ & H); exact H|]. intros <-.
    eapply hoare_pre; [|exact (IH r1 Hi2 Hb)]. intros d P (H & _) _. exact H.
Qed.

(** ** the whole run *)
Lemma start_pre : forall w (d : disk) (P : poss), facts d P -> links_synced d P -> open_good load imgok right w d P -> (forall n g, inuse n g -> w_open w n g = Some true) -> Pre_prune w (prepare d) d P.
Proof.
  intros w d P (ND & (HS & HU) & HC) HL HO HW. unfold Pre_prune, prepare. cbn [r_act r_arts r_local].
  assert (FULL : forall n g, full0 P n g -> full P (objs_in d) n g).
  { intros n g (img & objs & C1 & C2 & C3 & C4). exists img, objs. split; [exact C1|]. split; [exact C2|]. split; [exact C3|].
    intros o Ho. split; [|exact (C4 o Ho)]. apply in_objs. destruct (C4 o Ho _ (HC (KObj o))) as (c & C5 & _). congruence. }
  assert (INACT : forall n g, In (n, g) (filter (fun a => kmem a (arts_in d)) (links_in d)) <-> get (KLink n) d = Some g).
  { intros n g. rewrite filter_In, kmem_in, in_arts, (in_links n g d ND). split; [tauto|]. intros H. split; [exact H|].
    pose proof (HC (KLink n)) as Hp. rewrite H in Hp. destruct (HS n g Hp) as (img & objs & C1 & _). rewrite (C1 _ (HC (KArt n g))). discriminate. }
  split; [|split; [|split; [|split]]].
  - intros n v Hv. apply HL in Hv. subst v. assert (NDA : NoDup (map fst (filter (fun a => kmem a (arts_in d)) (links_in d)))) by (apply filter_names_nodup, links_names_nodup, ND).
    destruct (get (KLink n) d) as [g|] eqn:E; [symmetry; apply in_active; [exact NDA|apply INACT, E]|].
    destruct (active _ n) as [g|] eqn:Ea; [|reflexivity]. apply active_in in Ea. apply INACT in Ea. congruence.
  - intros [n g] Ha. apply filter_In in Ha as [_ Ha]. now apply kmem_in.
  - intros n g Hin [Hk|Hk]; apply FULL.
    + apply HS. apply INACT in Hk. rewrite <- Hk. apply HC.
    + apply HO; [exact Hk|]. now apply in_arts.
  - intros n g. apply in_arts.
  - split; [intros o; apply in_objs|]. intros n g Hu. split; [|right; exact (HW n g Hu)]. apply in_arts.
    destruct (HU n g Hu) as (img & objs & C1 & _). rewrite (C1 _ (HC (KArt n g))). discriminate.
Qed.
Lemma start_safe : forall d, links_complete load imgok right d -> (forall n g, inuse n g -> complete load imgok right d n g) -> safe (on_disk d).
Proof.
  intros d H H0. assert (X : forall n g, complete load imgok right d n g -> full0 (on_disk d) n g).
  2:{ split; intros n g Hp; apply X; [|exact (H0 n g Hp)]. apply H. symmetry. exact Hp. }
  clear H H0. intros n g H. destruct H as (img & objs & C1 & C2 & C3 & C4). exists img, objs.
  split; [intros v ->; exact C1|]. split; [exact C2|]. split; [exact C3|]. intros o Ho v ->. destruct (C4 o Ho) as (c & C5 & C6). eauto.
Qed.
Lemma start_G : forall env, NoDup (map fst d0) -> links_complete load imgok right d0 -> (forall n g, inuse n g -> complete load imgok right d0 n g) -> G (start d0 env).
Proof.
  intros env ND HL HU. constructor; cbn [start s_dir s_ops]; [reflexivity| |exact ND]. intros p q E. destruct p; [|discriminate]. cbn [poss_ops]. now apply start_safe.
Qed.
Lemma run_ok : forall w1 w2 b imgs s0, G s0 -> links_synced (s_dir s0) (PS s0) -> bundle_good imgok right b imgs -> open_good load imgok right w1 (s_dir s0) (PS s0) ->
  (forall n g, inuse n g -> w_open w1 n g = Some true /\ w_open w2 n g = Some true) ->
  match install_run load w1 w2 b imgs s0 with
  | (Ok r, s) => G s /\ RJ r (s_dir s) (PS s) /\ all_needed (r_arts r) (r_local r) (s_dir s) /\
      r_act r = fold_left (plan_act (map i_name imgs)) imgs (r_act (prepare (s_dir s0))) /\
      forall a, In a (r_arts r) -> kept w2 (r_act r) a
  | (Err, s) => G s
  | (Abort, _) => False
  end.
Proof.
  intros w1 w2 b imgs s0 HG HL (HB1 & HB2) HO HW.
  pose proof (start_pre w1 _ _ (G_facts _ HG) HL HO (fun n g Hu => proj1 (HW n g Hu))) as HP.
  assert (H : hoare (fun d P => d = s_dir s0 /\ P = PS s0) (install_run load w1 w2 b imgs)
    (fun r d P => RJ r d P /\ all_needed (r_arts r) (r_local r) d /\ r_act r = fold_left (plan_act (map i_name imgs)) imgs (r_act (prepare (s_dir s0))) /\ forall a, In a (r_arts r) -> kept w2 (r_act r) a)).
  { unfold install_run. apply hoare_get. intros d1. eapply hoare_pure with (X := d1 = s_dir s0); [intros d P (_ & H & _); exact H|]. intros ->.
    eapply hoare_bind; [eapply hoare_pre; [|apply (prune_ok w1 (prepare (s_dir s0)))]; intros d P (-> & _ & ->) _; exact HP|]. intros r1. cbn beta.
    eapply hoare_pure with (X := r_act r1 = r_act (prepare (s_dir s0))); [intros d P (_ & _ & _ & _ & H & _); exact H|]. intros <-.
    eapply hoare_bind; [eapply hoare_pre; [|apply (handle_plans_ok w1 b (map i_name imgs) imgs r1 HB1 HB2)]; intros d P (H1 & H2 & H3 & _) _; split; [exact H1|split; [exact H2|exact H3]]|]. intros r2. cbn beta.
    eapply hoare_pure with (X := r_act r2 = fold_left (plan_act (map i_name imgs)) imgs (r_act r1)); [intros d P (_ & H); exact H|]. intros <-.
    eapply hoare_conseq; [apply (prune_ok w2 r2)| |].
    - intros d P ((H1 & H2 & H3) & _) _. split; [exact H2|]. split; [exact H3|]. split; [intros n g Hin _; exact (j_full _ _ _ _ H1 n g Hin)|]. split; [exact (j_art _ _ _ _ H1)|]. split; [exact (j_obj _ _ _ _ H1)|].
      intros n g Hu. split; [exact (j_use _ _ _ _ H1 n g Hu)|]. right. exact (proj2 (HW n g Hu)).
    - intros r d P (H1 & H2 & H3 & H4 & H5 & H6) _. split; [split; [exact H1|split; [exact H2|exact H3]]|]. split; [exact H4|]. split; [exact H5|]. rewrite H5. intros a Ha. apply H6, Ha. }
  specialize (H s0 HG (conj eq_refl eq_refl)). destruct (install_run load w1 w2 b imgs s0) as [[r| |] s]; auto.
Qed.
Lemma safe_crash : forall s c, G s -> crash d0 (s_ops s) c -> links_complete load imgok right c /\ forall n g, inuse n g -> complete load imgok right c n g.
Proof.
  intros s c HG (p & q & E & H). destruct (G_safe _ HG p q E) as (S1 & S2).
  assert (X : forall n g, full0 (poss_ops p d0 (on_disk d0)) n g -> complete load imgok right c n g).
  { intros n g (img & objs & C1 & C2 & C3 & C4). exists img, objs. split; [exact (C1 _ (H _))|]. split; [exact C2|]. split; [exact C3|]. intros o Ho. exact (C4 o Ho _ (H _)). }
  split; intros n g Hl; apply X; [|exact (S2 n g Hl)]. apply S1. rewrite <- Hl. apply H.
Qed.
End crash.

Definition nobody (n g : string) : Prop := False.
Lemma session_ok : forall load imgok right d0 ops m, NoDup (map fst d0) -> links_complete load imgok right d0 -> session load imgok right d0 ops m -> forall env, G load imgok right d0 nobody (mkst m ops env).
Proof.
  intros load imgok right d0 ops m ND HL HS. induction HS as [|ops m w1 w2 b imgs env r s HS IH H1 H2 H3 H4]; intros env'.
  - apply (start_G load imgok right d0 nobody env' ND HL). intros n g [].
  - pose proof (run_ok load imgok right d0 nobody w1 w2 b imgs (mkst m ops env) (IH env) H1 H3 H2 (fun n g (H : nobody n g) => match H with end)) as R. rewrite H4 in R.
    destruct r; [destruct R as (R & _)| |contradiction]; exact (G_env _ _ _ _ _ s env' R).
Qed.

(** ** final statements *)
Lemma c68_history_ok : forall load imgok right d c,
  disk_ok d -> links_complete load imgok right d -> history load imgok right d c -> links_complete load imgok right c.
Proof.
  intros load imgok right d c ND HL H. assert (X : disk_ok c /\ links_complete load imgok right c); [|exact (proj2 X)].
  induction H as [|c ops m c' H1 (IH1 & IH2) H2 H3 H4]; [split; assumption|]. split; [exact H3|].
  exact (proj1 (safe_crash load imgok right c nobody (mkst m ops []) c' (session_ok load imgok right c ops m IH1 IH2 H2 []) H4)).
Qed.

(** artifacts in use during the whole installation stay complete, at every moment and after a crash *)
Lemma c68_open_ok : forall load imgok right d w1 w2 b imgs env r s,
  disk_ok d -> links_complete load imgok right d -> open_good load imgok right w1 d (on_disk d) -> bundle_good imgok right b imgs ->
  install_run load w1 w2 b imgs (start d env) = (r, s) ->
  forall n g, w_open w1 n g = Some true -> w_open w2 n g = Some true -> get (KArt n g) d <> None ->
  forall c, crash d (s_ops s) c -> complete load imgok right c n g.
Proof.
  intros load imgok right d w1 w2 b imgs env r s ND HL HO HB HR n g H1 H2 H3 c HC.
  set (U := fun m h => w_open w1 m h = Some true /\ w_open w2 m h = Some true /\ get (KArt m h) d <> None).
  assert (HU : forall m h, U m h -> complete load imgok right d m h).
  { intros m h (U1 & _ & U3). destruct (HO m h U1 U3) as (img & objs & C1 & C2 & C3 & C4). exists img, objs.
    split; [apply C1; reflexivity|]. split; [exact C2|]. split; [exact C3|]. intros o Ho. apply (C4 o Ho). reflexivity. }
  pose proof (run_ok load imgok right d U w1 w2 b imgs (start d env) (start_G load imgok right d U env ND HL HU)) as R.
  cbn [start s_dir] in R. unfold PS in R. cbn [start s_ops poss_ops] in R.
  specialize (R (fun n v H => H) HB HO (fun m h H => conj (proj1 H) (proj1 (proj2 H)))). fold (start d env) in R. rewrite HR in R.
  assert (HG : G load imgok right d U s) by (destruct r; [exact (proj1 R)|exact R|contradiction]).
  apply (proj2 (safe_crash load imgok right d U s c HG HC)). split; [exact H1|]. split; assumption.
Qed.

Lemma active_activate : forall a act n, active (activate a act) n = if String.eqb (fst a) n then Some (snd a) else active act n.
Proof.
  intros [m g] act n. unfold active, activate. cbn [find fst snd]. destruct (String.eqb_spec m n) as [->|Hne]; [reflexivity|]. f_equal.
  induction act as [|[x h] act IH]; [reflexivity|]. cbn [filter fst]. destruct (String.eqb_spec x m) as [->|Hx]; cbn [negb].
  - cbn [find fst]. destruct (String.eqb_spec m n) as [|_]; [contradiction|]. exact IH.
  - cbn [find fst]. destruct (String.eqb x n); [reflexivity|exact IH].
Qed.
Lemma active_filter : forall keep act n, active (filter (fun a : key => mem (fst a) keep) act) n = if mem n keep then active act n else None.
Proof.
  intros keep act n. unfold active. induction act as [|[x h] act IH]; [now destruct (mem n keep)|]. cbn [filter fst find].
  destruct (mem x keep) eqn:Em; cbn [find fst]; destruct (String.eqb_spec x n) as [->|Hne]; rewrite ?Em; try reflexivity; try exact IH.
  rewrite IH, Em. reflexivity.
Qed.
Lemma active_fold : forall keep l act n, incl (map i_name l) keep -> active (fold_left (plan_act keep) l act) n =
  match last_image l n with Some i => Some (i_digest i) | None => match l with [] => active act n | _ => if mem n keep then active act n else None end end.
Proof.
  intros keep l act n. induction l as [|i l IH] using rev_ind; intros Hk; [reflexivity|]. rewrite fold_left_app. cbn [fold_left]. unfold plan_act at 1. rewrite active_activate, active_filter.
  unfold last_image. rewrite rev_app_distr. cbn [rev app find]. cbn [ikey fst snd]. destruct (String.eqb_spec (i_name i) n) as [Hn|Hne]; [reflexivity|].
  rewrite map_app in Hk. specialize (IH (fun x Hx => Hk x (in_or_app _ _ _ (or_introl Hx)))).
  rewrite IH. unfold last_image in *. destruct (find (fun j => String.eqb (i_name j) n) (rev l)) as [j|] eqn:Ef.
  - destruct (mem n keep) eqn:Em; [reflexivity|]. exfalso. apply find_some in Ef as [Ef1 Ef2]. apply String.eqb_eq in Ef2. subst n. apply in_rev in Ef1.
    assert (Hm : mem (i_name j) keep = true) by (apply mem_in, Hk, in_or_app; left; apply in_map, Ef1). congruence.
  - destruct l as [|k l]; cbn [app]; [reflexivity|]. now destruct (mem n keep).
Qed.

Lemma c68_run_ok : forall load imgok right d ops m w1 w2 b imgs env r s,
  disk_ok d -> links_complete load imgok right d -> session load imgok right d ops m ->
  links_synced m (poss_ops ops d (on_disk d)) -> open_good load imgok right w1 m (poss_ops ops d (on_disk d)) -> bundle_good imgok right b imgs ->
  install_run load w1 w2 b imgs (mkst m ops env) = (r, s) ->
  r <> Abort /\
  ((exists repo, r = Ok repo) ->
   (forall n, get (KLink n) (s_dir s) = match last_image imgs n with
                                        | Some i => Some (i_digest i)
                                        | None => match imgs with [] => get (KLink n) m | _ => None end
                                        end) /\
   (forall n g, get (KArt n g) (s_dir s) <> None -> complete load imgok right (s_dir s) n g /\ (get (KLink n) (s_dir s) = Some g \/ w_open w2 n g = Some true)) /\
   (forall o, get (KObj o) (s_dir s) <> None -> needed load (s_dir s) o) /\
   (forall n g, get (KTmp n g) (s_dir s) = None) /\
   links_synced (s_dir s) (poss_ops (s_ops s) d (on_disk d))).
Proof.
  intros load imgok right d ops m w1 w2 b imgs env r s ND HL HS H1 H2 H3 HR.
  pose proof (session_ok load imgok right d ops m ND HL HS env) as HG0.
  pose proof (run_ok load imgok right d nobody w1 w2 b imgs (mkst m ops env) HG0 H1 H3 H2 (fun n g (H : nobody n g) => match H with end)) as R. rewrite HR in R.
  split; [intros ->; exact R|]. intros (rp & ->). destruct R as (HG & (HJ & HSet & Hincl) & HN & HA & HK).
  destruct (G_facts _ _ _ _ _ _ HG) as (ND' & (HS1 & _) & HC).
  assert (LNK : forall n, get (KLink n) (s_dir s) = active (r_act rp) n) by (intros n; apply HSet, HC).
  assert (ALL : forall n g, In (n, g) (r_arts rp) -> complete load imgok right (s_dir s) n g).
  { intros n g Hin. destruct (j_full _ _ _ _ _ _ _ _ HJ n g Hin) as (img & objs & C1 & C2 & C3 & C4). exists img, objs. split; [apply C1, HC|]. split; [exact C2|]. split; [exact C3|].
    intros o Ho. apply (proj2 (C4 o Ho)). apply HC. }
  split; [|split; [|split; [|split]]].
  - intros n. rewrite LNK, HA, active_fold by apply incl_refl. cbn [s_dir]. destruct (last_image imgs n) as [i|] eqn:El; [reflexivity|]. destruct imgs as [|i0 imgs].
    + pose proof (start_pre load imgok right nobody w1 m _ (G_facts _ _ _ _ _ _ HG0) H1 H2 (fun n g (H : nobody n g) => match H with end)) as (HP & _). symmetry. apply HP.
      exact (proj2 (proj2 (G_facts _ _ _ _ _ _ HG0)) (KLink n)).
    + destruct (mem n (map i_name (i0 :: imgs))) eqn:Em; [|reflexivity]. exfalso. apply mem_in in Em. apply in_map_iff in Em as (i & Ei & Hi).
      unfold last_image in El. apply in_rev in Hi. pose proof (find_none _ _ El i Hi) as Y. cbn beta in Y. rewrite Ei, String.eqb_refl in Y. discriminate.
  - intros n g Hg. apply (j_art _ _ _ _ _ _ _ _ HJ) in Hg. split; [exact (ALL n g Hg)|]. destruct (HK _ Hg) as [Ha|Ha]; [left|right; exact Ha].
    rewrite LNK. 
    assert (NDr : NoDup (map fst (r_act rp))).
    { rewrite HA. assert (Y : NoDup (map fst (r_act (prepare m)))) by (apply filter_names_nodup, links_names_nodup; exact (proj1 (G_facts _ _ _ _ _ _ HG0))).
      cbn [s_dir]. revert Y. generalize (r_act (prepare m)) as a. clear. generalize (map i_name imgs) as kp. induction imgs as [|i l IH]; intros kp a Y; [exact Y|]. cbn [fold_left]. apply IH.
      unfold plan_act. apply activate_nodup, filter_names_nodup, Y. }
    apply in_active; assumption.
  - intros o Ho. apply (j_obj _ _ _ _ _ _ _ _ HJ) in Ho. destruct (HN o Ho) as (n & g & img & objs & _ & X2 & X3 & X4). exists n, g, img, objs. auto.
  - exact (j_tmp _ _ _ _ _ _ _ _ HJ).
  - intros n v Hv. rewrite (HSet n v Hv). symmetry. apply LNK.
Qed.

(** ** the names of objects *)
Lemma xd2_app : forall i a b, xdigits_except_2 i (a ++ b) = xdigits_except_2 i a && xdigits_except_2 (i + String.length a) b.
Proof.
  intros i a. revert i. induction a as [|c a IH]; intros i b; cbn [append xdigits_except_2 String.length]; [now rewrite Nat.add_0_r|]. rewrite IH.
  replace (S i + String.length a) with (i + S (String.length a)) by lia. now rewrite andb_assoc.
Qed.
Lemma xd2_high : forall s i, 3 <= i -> xdigits_except_2 i s = all_chars xdigit s.
Proof.
  induction s as [|c s IH]; intros i Hi; [reflexivity|]. cbn [xdigits_except_2 all_chars]. rewrite IH by lia. destruct (Nat.eqb_spec i 2); [lia|reflexivity].
Qed.
Lemma name_valid_spec : forall s, name_valid s = true <-> object_name s.
Proof.
  intros s. unfold name_valid. split.
  - intros H. apply andb_prop in H as [H H3]. apply andb_prop in H as [H1 H2]. apply Nat.eqb_eq in H1.
    destruct s as [|a [|b [|c s]]]; try discriminate H2. cbn [String.get] in H2. apply Ascii.eqb_eq in H2. subst c.
    exists (String a (String b "")), s. cbn [String.length] in H1. cbn [xdigits_except_2 Nat.eqb orb] in H3. rewrite (xd2_high s 3) in H3 by lia.
    apply andb_prop in H3 as [H4 H3]. apply andb_prop in H3 as [H5 H3]. cbn [all_chars]. rewrite H4, H5. cbn [String.length] in *. split; [reflexivity|]. split; [reflexivity|]. split; [lia|]. split; [reflexivity|]. exact H3.
  - intros (a & b & -> & H1 & H2 & H3 & H4). destruct a as [|x [|y [|z a]]]; try discriminate H1. cbn [all_chars] in H3. apply andb_prop in H3 as [H5 H3]. apply andb_prop in H3 as [H6 _].
    cbn [append String.get]. cbn [xdigits_except_2 Nat.eqb orb]. rewrite (xd2_high b 3) by lia. cbn [String.length]. rewrite H2, H4, H5, H6. reflexivity.
Qed.
Lemma node_ind' : forall (Pr : node -> Prop), (forall reg pl cs, Forall Pr cs -> Pr (Node reg pl cs)) -> forall n, Pr n.
Proof.
  intros Pr H. fix IH 1. intros [reg pl cs]. apply H. induction cs as [|c cs IHc]; constructor; [apply IH|exact IHc].
Qed.
Lemma c68_names_ok : forall n,
  (forall l, collect n = Ok l -> (forall p, In p l <-> file_below n p) /\ Forall object_name l) /\
  (collect n = Err <-> exists p, file_below n p /\ ~ object_name p) /\
  collect n <> Abort.
Proof.
  intros n. assert (X : match collect n with Ok l => (forall p, In p l <-> file_below n p) /\ Forall object_name l | Err => exists p, file_below n p /\ ~ object_name p | Abort => False end).
  { induction n as [reg pl cs IH] using node_ind'. cbn [collect].
    set (go := fix go (cs : list node) : res (list string) := match cs with [] => Ok [] | c :: r => do here <- match c with Node true (Some p) _ => if name_valid p then Ok [p] else Err | _ => Ok [] end ;; do sub <- collect c ;; do rest <- go r ;; Ok (here ++ sub ++ rest) end).
    assert (Y : match go cs with
                | Ok l => (forall p, In p l <-> exists c, In c cs /\ ((exists gs, c = Node true (Some p) gs) \/ file_below c p)) /\ Forall object_name l
                | Err => exists c p, In c cs /\ ((exists gs, c = Node true (Some p) gs) \/ file_below c p) /\ ~ object_name p
                | Abort => False end).
    { induction cs as [|c cs IHc]; [cbn; split; [intros p; split; [intros []|intros (c & [] & _)]|constructor]|].
      inversion IH as [|? ? IH1 IH2]; subst. specialize (IHc IH2). cbn [go]. fold go.
      assert (Z : match match c with Node true (Some p) _ => if name_valid p then Ok [p] else Err | _ => Ok [] end with
                  | Ok h => (forall p, In p h <-> exists gs, c = Node true (Some p) gs) /\ Forall object_name h
                  | Err => exists p, (exists gs, c = Node true (Some p) gs) /\ ~ object_name p
                  | Abort => False end).
      { destruct c as [[|] [p|] gs]; try (split; [intros q; split; [intros []|intros (g & Hg); discriminate Hg]|constructor]).
        destruct (name_valid p) eqn:Ev.
        - split; [|constructor; [now apply name_valid_spec|constructor]]. intros q. split; [intros [<-|[]]; eauto|]. intros (g & Hg). injection Hg as -> _. left. reflexivity.
        - exists p. split; [eauto|]. rewrite <- name_valid_spec. congruence. }
      destruct (match c with Node true (Some p) _ => if name_valid p then Ok [p] else Err | _ => Ok [] end) as [h| |]; cbn [bind]; [|destruct Z as (p & Z1 & Z2); exists c, p; cbn [In]; auto|contradiction].
      destruct Z as (Z1 & Z2).
      destruct (collect c) as [sub| |]; cbn [bind]; [|destruct IH1 as (p & Z3 & Z4); exists c, p; cbn [In]; auto|contradiction].
      destruct IH1 as (Z3 & Z4).
      destruct (go cs) as [rest| |]; cbn [bind]; [|destruct IHc as (c' & p & Z5 & Z6); exists c', p; cbn [In]; auto|contradiction].
      destruct IHc as (Z5 & Z6). split; [|apply Forall_app; split; [exact Z2|apply Forall_app; split; assumption]].
      intros p. rewrite !in_app_iff, Z1, Z3, Z5. split.
      - intros [H|[H|(c' & H1 & H2)]]; [exists c|exists c|exists c']; cbn [In]; auto.
      - intros (c' & [<-|H1] & H2); [tauto|]. right. right. eauto. }
    assert (EQ : forall p, file_below (Node reg pl cs) p <-> exists c, In c cs /\ ((exists gs, c = Node true (Some p) gs) \/ file_below c p)).
    { intros p. split.
      - intros H. inversion H; subst; eauto 6.
      - intros (c & H1 & [(gs & ->)|H2]); [eapply FB_here; eauto|eapply FB_deep; eauto]. }
    destruct (go cs) as [l| |]; [|destruct Y as (c & p & Y1 & Y2 & Y3); exists p; split; [apply EQ; eauto|exact Y3]|exact Y].
    destruct Y as (Y1 & Y2). split; [|exact Y2]. intros p. rewrite Y1. symmetry. apply EQ. }
  destruct (collect n) as [l| |]; [|split; [intros l H; discriminate H|split; [tauto|discriminate]]|contradiction].
  split; [intros l' H; apply Ok_inj in H; subst l'; exact X|]. split; [|discriminate]. split; [discriminate|]. intros (p & Hp & Hn). exfalso. destruct X as (X1 & X2).
  rewrite Forall_forall in X2. apply Hn, X2, X1, Hp.
Qed.

(** ** what does not hold *)
Definition ex_o1 : string := "aa/00000000000000000000000000000000000000000000000000000000000000".
Definition ex_o2 : string := "bb/11111111111111111111111111111111111111111111111111111111111111".
Definition ex_o3 : string := "cc/22222222222222222222222222222222222222222222222222222222222222".
Definition ex_load (img : string) : option node :=
  if String.eqb img "I1" then Some (Node false None [Node true (Some ex_o1) []])
  else if String.eqb img "I2" then Some (Node false None [Node true (Some ex_o2) []])
  else if String.eqb img "I3" then Some (Node false None [Node true (Some ex_o2) []; Node false None [Node true (Some ex_o3) []; Node true None []]])
  else None.
Definition ex_imgok (n g img : string) : Prop := img = ("I" ++ g)%string.
Definition ex_right (o c : string) : Prop := c = stake 2 o.
Definition ex_bundle : bundle := [(ex_o2, "bb"%string); (ex_o3, "cc"%string)].
Definition ex_w : world := mkworld (fun _ => []) (fun _ => []) (fun _ _ => Some false).
Definition ex_disk : disk := [(KLink "a", "1"%string); (KArt "a" "1", "I1"%string); (KObj ex_o1, "aa"%string)].

Lemma poss_ops_app : forall l1 l2 d P, poss_ops (l1 ++ l2) d P = poss_ops l2 (play l1 d) (poss_ops l1 d P).
Proof. induction l1 as [|o l1 IH]; intros l2 d P; [reflexivity|]. cbn [app poss_ops]. rewrite IH. reflexivity. Qed.
Lemma ex_disk_complete : links_complete ex_load ex_imgok ex_right ex_disk.
Proof.
  intros n g H. unfold get in H. cbn [ex_disk find fst item_eqb] in H. destruct (String.eqb_spec n "a") as [->|_]; [|discriminate H]. cbn in H. injection H as <-.
  exists "I1"%string, [ex_o1]. split; [reflexivity|]. split; [reflexivity|]. split; [reflexivity|]. intros o [<-|[]]. exists "aa"%string. split; reflexivity.
Qed.
Lemma ex_bundle_good : bundle_good ex_imgok ex_right ex_bundle [mkimage "a" "2" "I2"; mkimage "b" "3" "I3"].
Proof.
  split; [repeat constructor|]. intros o c. unfold lookup, ex_bundle. cbn [find fst]. destruct (String.eqb_spec o ex_o2) as [->|_]; [cbn; intros H; injection H as <-; reflexivity|].
  destruct (String.eqb_spec o ex_o3) as [->|_]; [cbn; intros H; injection H as <-; reflexivity|discriminate].
Qed.

Lemma c68_unsynced_refuted : exists load imgok right d w b imgs env1 s1 env2 s2 c,
  disk_ok d /\ links_complete load imgok right d /\ bundle_good imgok right b imgs /\ (forall n g, w_open w n g = Some false) /\
  install_run load w w b imgs (start d env1) = (Err, s1) /\
  install_run load w w b imgs (mkst (s_dir s1) (s_ops s1) env2) = (Err, s2) /\
  disk_ok c /\ crash d (s_ops s2) c /\ ~ links_complete load imgok right c.
Proof.
  set (l1 := [OSyncfs; OData (KTmp "a" "2") "I2"; OData (KObj ex_o2) "bb"; OSyncfs; ORename (KTmp "a" "2") (KArt "a" "2"); OSyncDir]).
  set (l2 := [OData (KLink "a") "2"; ORemove (KArt "a" "1"); ORemove (KObj ex_o1)]).
  exists ex_load, ex_imgok, ex_right, ex_disk, ex_w, ex_bundle, [mkimage "a" "2" "I2"], (repeat true 9 ++ [false]), (mkst (play (l1 ++ [OData (KLink "a") "2"]) ex_disk) (l1 ++ [OData (KLink "a") "2"]) []),
    [true; true; false], (mkst (play (l1 ++ l2) ex_disk) (l1 ++ l2) []), (del (KObj ex_o1) (del (KArt "a" "1") (play l1 ex_disk))).
  split; [repeat constructor; cbn; intuition congruence|]. split; [exact ex_disk_complete|].
  split; [split; [repeat constructor|exact (proj2 ex_bundle_good)]|]. split; [reflexivity|]. split; [vm_compute; reflexivity|]. split; [vm_compute; reflexivity|].
  split; [|split].
  - vm_compute. repeat constructor; cbn; intuition discriminate.
  - exists (l1 ++ l2), []. split; [symmetry; apply app_nil_r|]. intros k. rewrite poss_ops_app. pose proof (poss_ops_cur l1 ex_disk (on_disk ex_disk) (fun k => eq_refl) k) as HC.
    set (P1 := poss_ops l1 ex_disk (on_disk ex_disk)) in *. unfold l2. cbn [poss_ops poss_step]. rewrite !get_del.
    destruct (item_eqb_spec k (KObj ex_o1)) as [->|_]; [right; auto|]. destruct (item_eqb_spec k (KArt "a" "1")) as [->|_]; [left; right; auto|]. left. left. left. exact HC.
  - intros H. assert (E : get (KLink "a") (del (KObj ex_o1) (del (KArt "a" "1") (play l1 ex_disk))) = Some "1"%string) by (vm_compute; reflexivity).
    destruct (H _ _ E) as (img & objs & C1 & _). vm_compute in C1. discriminate C1.
Qed.
(** an artifact that lost an object is not repaired by installing it again *)
Lemma c68_repair_refuted : exists load imgok right d w b i r s,
  disk_ok d /\ bundle_good imgok right b [i] /\ (forall n g, w_open w n g = Some false) /\
  (exists objs, objects_of load (i_img i) = Ok objs /\ forall o, In o objs -> exists c, lookup b o = Some c) /\
  install_run load w w b [i] (start d []) = (Ok r, s) /\ get (KLink (i_name i)) (s_dir s) = Some (i_digest i) /\ ~ complete load imgok right (s_dir s) (i_name i) (i_digest i).
Proof.
  set (d := [(KLink "a", "2"%string); (KArt "a" "2", "I2"%string)]).
  exists ex_load, ex_imgok, ex_right, d, ex_w, ex_bundle, (mkimage "a" "2" "I2"), (mkrepo [("a", "2")%string] [("a", "2")%string] []), (mkst d [OSyncfs; OSyncfs] []).
  split; [repeat constructor; cbn; intuition discriminate|]. split; [split; [repeat constructor|exact (proj2 ex_bundle_good)]|]. split; [reflexivity|].
  split; [exists [ex_o2]; split; [reflexivity|]; intros o [<-|[]]; exists "bb"%string; reflexivity|]. split; [vm_compute; reflexivity|]. split; [reflexivity|].
  intros (img & objs & C1 & C2 & C3 & C4). vm_compute in C1. injection C1 as <-. vm_compute in C3. apply Ok_inj in C3. subst objs. destruct (C4 ex_o2 (or_introl eq_refl)) as (c & C5 & _). vm_compute in C5. discriminate C5.
Qed.
