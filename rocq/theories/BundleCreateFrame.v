(** Framing: which parts of the tree the steps of bundle creation can change. *)
From Verif Require Import Base KeyFile KeyFileLemmas Image Manifest BundleCreate BundleCreateSpec BundleCreateLink.

(** directories that agree on the entries whose name satisfies [keep] *)
Definition sim (keep : string -> bool) (a b : dir) : Prop :=
  filter (fun x => keep (fst x)) a = filter (fun x => keep (fst x)) b.

Lemma sim_refl : forall k a, sim k a a. Proof. reflexivity. Qed.
Lemma sim_sym : forall k a b, sim k a b -> sim k b a. Proof. unfold sim. auto. Qed.
Lemma sim_trans : forall k a b c, sim k a b -> sim k b c -> sim k a c.
Proof. unfold sim. intros. congruence. Qed.
Lemma filter_sub {A} : forall (f g : A -> bool) l, (forall x, f x = true -> g x = true) -> filter f (filter g l) = filter f l.
Proof.
  intros f g l H. induction l as [| x r IH]; [reflexivity |]. cbn. destruct (g x) eqn:G; cbn.
  - destruct (f x); rewrite IH; reflexivity.
  - destruct (f x) eqn:F; [apply H in F; congruence | assumption].
Qed.
Lemma sim_weaken : forall (k k' : string -> bool) a b, (forall n, k' n = true -> k n = true) -> sim k a b -> sim k' a b.
Proof.
  unfold sim. intros k k' a b H S.
  rewrite <- (filter_sub _ (fun x => k (fst x)) a), <- (filter_sub _ (fun x => k (fst x)) b) by auto. congruence.
Qed.
Lemma sim_in : forall k a b n c, sim k a b -> k n = true -> In (n, c) a -> In (n, c) b.
Proof.
  unfold sim. intros k a b n c S K I.
  assert (J : In (n, c) (filter (fun x => k (fst x)) a)) by (apply filter_In; auto).
  rewrite S in J. apply filter_In in J. tauto.
Qed.
Lemma assoc_filter : forall (k : string -> bool) (a : dir) n, k n = true -> assoc n (filter (fun x => k (fst x)) a) = assoc n a.
Proof.
  intros k a n K. induction a as [| [m c] r IH]; [reflexivity |]. cbn [filter fst assoc]. destruct (k m) eqn:E; cbn [assoc].
  - rewrite IH. reflexivity.
  - destruct (String.eqb_spec m n) as [-> | _]; [congruence | assumption].
Qed.
Lemma sim_assoc : forall k a b n, sim k a b -> k n = true -> assoc n a = assoc n b.
Proof. intros k a b n S K. rewrite <- (assoc_filter k a n K), <- (assoc_filter k b n K). unfold sim in S. rewrite S. reflexivity. Qed.
Lemma sim_set : forall k a n x, k n = false -> sim k a (assoc_set n x a).
Proof.
  unfold sim. intros k a n x K. induction a as [| [m c] r IH]; cbn.
  - rewrite K. reflexivity.
  - destruct (String.eqb_spec m n) as [-> | N]; cbn [filter fst].
    + rewrite K. reflexivity.
    + destruct (k m); rewrite IH; reflexivity.
Qed.
Lemma sim_remove : forall k (a : dir) n, k n = false -> sim k a (assoc_remove n a).
Proof.
  unfold sim, assoc_remove. intros k a n K. symmetry. apply filter_sub. intros [m c] H. cbn [fst] in *.
  destruct (String.eqb_spec m n) as [-> | _]; [congruence | reflexivity].
Qed.
Lemma sim_tput : forall k a n p x, k n = false -> sim k a (tput a (n :: p) x).
Proof.
  intros k a n p x K. cbn [tput]. destruct p as [| m p].
  - destruct x; [apply sim_set | apply sim_remove]; assumption.
  - destruct (assoc n a) as [[| | |] |]; try apply sim_refl. apply sim_set. assumption.
Qed.

Definition notwd (n : string) : bool := negb (String.eqb n WD).
Lemma notwd_true : forall n, n <> WD -> notwd n = true.
Proof. intros n H. unfold notwd. destruct (String.eqb_spec n WD); [congruence | reflexivity]. Qed.

(** ** reading through symbolic links does not depend on ".rauc-workdir" *)

Definition sims := Forall2 (sim notwd).

Lemma sims_refl : forall u, sims u u.
Proof. induction u; constructor; [apply sim_refl | assumption]. Qed.

Lemma leads_sim : forall up es t j d u, leads up es t j d u -> forall up' es', sims up up' -> sim notwd es es' ->
  exists d' u', leads up' es' t j d' u' /\ sim notwd d d' /\ sims u u'.
Proof.
  induction 1 as [up es | p up es | es | up es n d N1 N2 N3 E | up es n t j d u N1 N2 N3 E L IH]; intros up' es' U S.
  - exists es', up'. repeat split; [constructor | assumption | assumption].
  - inversion U as [| a b c d' Sa Ub]; subst. eexists; eexists; split; [apply ld_up | split; assumption].
  - inversion U; subst. eexists; eexists; split; [apply ld_top | split; [assumption | constructor]].
  - exists d, (es' :: up'). split; [| split; [apply sim_refl | constructor; assumption]].
    apply ld_dir; auto. rewrite <- (sim_assoc notwd es es' n S (notwd_true _ N3)). assumption.
  - destruct (IH _ _ U S) as (d' & u' & L' & Sd & Su). exists d', u'. split; [| auto].
    eapply ld_link; eauto. rewrite <- (sim_assoc notwd es es' n S (notwd_true _ N3)). assumption.
Qed.

Lemma sees_sim : forall b up es p k, sees b up es p k -> forall up' es', sims up up' -> sim notwd es es' -> sees b up' es' p k.
Proof.
  assert (SY : forall u v, sims u v -> sims v u).
  { induction 1; constructor; [apply sim_sym |]; assumption. }
  induction 1 as [b up es n i I N | b up es n t I N H | b up es n d I N | b up es n d p k I N Hs IH
                 | b up es n t j d u I N L J | b up es n t j d u p k I N L J Hs IH]; intros up' es' U S;
    assert (I' := sim_in notwd es es' _ _ S (notwd_true _ N) I).
  - apply se_file; assumption.
  - apply se_link; [assumption | assumption |]. intros j d u L.
    destruct (leads_sim _ _ _ _ _ _ L up es (SY _ _ U) (sim_sym _ _ _ S)) as (d' & u' & L' & _). eauto.
  - eapply se_dir; eassumption.
  - eapply se_sub; [eassumption | assumption |]. apply IH; [constructor; assumption | apply sim_refl].
  - destruct (leads_sim _ _ _ _ _ _ L _ _ U S) as (d' & u' & L' & _). eapply se_ldir; eassumption.
  - destruct (leads_sim _ _ _ _ _ _ L _ _ U S) as (d' & u' & L' & Sd & Su). eapply se_lsub; try eassumption. apply IH; assumption.
Qed.
Lemma sees_sim_iff : forall b up es es' p k, sim notwd es es' -> (sees b up es p k <-> sees b up es' p k).
Proof.
  intros. split; intro H'; eapply sees_sim; eauto using sims_refl, sim_sym.
Qed.
Lemma reached_sim : forall b up es p x, reached b up es p x -> forall up' es', sims up up' -> sim notwd es es' ->
  exists x', reached b up' es' p x' /\ sim notwd x x'.
Proof.
  induction 1 as [b up es | b up es n d p x I N Hs IH | b up es n t j d u p x I N L J Hs IH]; intros up' es' U S.
  - exists es'. split; [constructor | assumption].
  - assert (I' := sim_in notwd es es' _ _ S (notwd_true _ N) I).
    destruct (IH (es' :: up') d ltac:(constructor; assumption) (sim_refl _ _)) as (x' & R & Sx).
    exists x'. split; [eapply re_sub; eassumption | assumption].
  - assert (I' := sim_in notwd es es' _ _ S (notwd_true _ N) I).
    destruct (leads_sim _ _ _ _ _ _ L _ _ U S) as (d' & u' & L' & Sd & Su).
    destruct (IH _ _ Su Sd) as (x' & R & Sx). exists x'. split; [eapply re_link; eassumption | assumption].
Qed.

Lemma shows_sim : forall k a b n p x, sim k a b -> k n = true -> shows a (n :: p) x -> shows b (n :: p) x.
Proof. intros k a b n p x S K H. inversion H; subst; econstructor; eauto using sim_in. Qed.

(** ** a content directory without links *)

Lemma no_links_sees : forall n es, n = Dir es -> no_links (Dir es) -> forall b up p k,
  sees b up es p k <-> shows (match without_wd (Dir es) with Dir x => x | _ => [] end) p k.
Proof.
  induction n as [| | | es0 IH] using node_ind'; try discriminate. intros es E NL b up p k. injection E as ->.
  rewrite Forall_forall in IH. inversion NL as [| | es' H]; subst. cbn [without_wd]. rewrite sees_entry.
  match goal with |- _ <-> shows (?F es) p k => assert (G : forall l, incl l es ->
    ((exists n c, In (n, c) l /\ n <> WD /\ entry b up es n c p k) <-> shows (F l) p k)) end; [| apply G, incl_refl].
  induction l as [| [n c] r IHl]; intro I; [split; [intros (? & ? & [] & _) | intro X; destruct (shows_nil _ _ X)] |].
  assert (Ir : incl r es) by (intros y Hy; apply I; right; assumption).
  assert (Ic : In (n, c) es) by (apply I; left; reflexivity). specialize (IHl Ir).
  assert (X : (exists n0 c0, In (n0, c0) ((n, c) :: r) /\ n0 <> WD /\ entry b up es n0 c0 p k) <->
     (n <> WD /\ entry b up es n c p k) \/ exists n0 c0, In (n0, c0) r /\ n0 <> WD /\ entry b up es n0 c0 p k).
  { split; [intros (n0 & c0 & [J | J] & Nx & Hx); [injection J as <- <-; auto | right; eauto]
      | intros [[Nx Hx] | (n0 & c0 & J & Nx & Hx)]; [exists n, c | exists n0, c0]; cbn; auto]. }
  rewrite X. clear X. cbn beta iota. change ".rauc-workdir" with WD in *.
  destruct (String.eqb_spec n WD) as [-> | N].
  { rewrite IHl. split; [intros [[? _] | ?]; [congruence | assumption] | auto]. }
  rewrite shows_cons, <- IHl. specialize (H _ _ Ic).
  assert (Y : entry b up es n c p k <-> shows [(n, without_wd c)] p k); [| rewrite Y; tauto].
  destruct c as [i | d | t |]; cbn [entry].
  - cbn [without_wd]. split; [intros [-> ->]; constructor; cbn; auto |]. intro Z. inversion Z; subst; cbn [In] in *;
      match goal with X : _ \/ False |- _ => destruct X as [Q | []] end; try discriminate. injection Q as <- <-. auto.
  - specialize (IH _ Ic d eq_refl H). cbn [snd] in *.
    destruct (without_wd (Dir d)) as [| w | |] eqn:W; try discriminate W.
    rewrite shows_one_dir. split; (intros [? | (p' & -> & Z)]; [left; assumption | right; exists p'; split; [reflexivity |]; apply (IH b (es :: up)); assumption]).
  - inversion H.
  - cbn [without_wd]. split; [intros [] |]. intro Z. inversion Z; subst; cbn [In] in *;
      match goal with X : _ \/ False |- _ => destruct X as [Q | []] end; discriminate.
Qed.

(** ** without ".." links nothing from outside is seen *)

Lemma assoc_in : forall (es : dir) n c, assoc n es = Some c -> In (n, c) es.
Proof.
  induction es as [| [m c'] r IH]; intros n c H; [discriminate |]. cbn in H.
  destruct (String.eqb_spec m n) as [-> | _]; [injection H as ->; left; reflexivity | right; apply IH; assumption].
Qed.

(** the target of a link is the directory itself or one in it *)
Lemma leads_inside : forall up es t j d u, leads up es t j d u -> t <> ".." -> no_link_to ".." (Dir es) ->
  (d = es \/ exists n, In (n, Dir d) es) /\ no_link_to ".." (Dir d).
Proof.
  induction 1 as [up es | p up es | es | up es n d N1 N2 N3 E | up es n t j d u N1 N2 N3 E L IH]; intros T NL.
  - auto.
  - congruence.
  - congruence.
  - apply assoc_in in E. split; [right; eauto |]. inversion NL as [| | | es' H]; subst. eauto.
  - apply IH; [| assumption]. apply assoc_in in E. inversion NL as [| | | es' H]; subst. apply H in E. inversion E; assumption.
Qed.

Lemma sees_confined : forall b up es p k, sees b up es p k -> no_link_to ".." (Dir es) ->
  forall i, k = KFile i -> exists q, shows es q (KFile i).
Proof.
  induction 1 as [b up es n i I N | b up es n t I N H | b up es n d I N | b up es n d p k I N Hs IH
                 | b up es n t j d u I N L J | b up es n t j d u p k I N L J Hs IH]; intros NL x E; try discriminate.
  - injection E as <-. exists [n]. constructor. assumption.
  - inversion NL as [| | | es' H]; subst. destruct (IH (H _ _ I) _ eq_refl) as [q Q].
    exists (n :: q). eapply sh_sub; eassumption.
  - assert (T : t <> "..") by (inversion NL as [| | | es' H]; subst; apply H in I; inversion I; assumption).
    destruct (leads_inside _ _ _ _ _ _ L T NL) as [[-> | [m M]] NL'].
    + apply IH; assumption.
    + destruct (IH NL' _ E) as [q Q]. exists (m :: q). eapply sh_sub; eassumption.
Qed.
