From Verif Require Import Base BaseLemmas Slot Image Handlers Install InstallSpec InstallProofs InstallRun InstallRunSpec.

Section Run.
Context {B : Type}.
Implicit Types w : world B.

Lemma replay_app w a b : replay w (a ++ b) = replay (replay w a) b.
Proof. unfold replay. apply fold_left_app. Qed.

(** P holds after every prefix *)
Definition along (P : world B -> Prop) w (es : list (event B)) : Prop :=
  forall n, P (replay w (firstn n es)).

Lemma along_nil (P : world B -> Prop) w : P w -> along P w [].
Proof. intros H n. rewrite firstn_nil. exact H. Qed.

Lemma along_cons (P : world B -> Prop) w e es : P w -> along P (apply w e) es -> along P w (e :: es).
Proof. intros H H1 [|n]; [exact H|]. apply (H1 n). Qed.

Lemma along_last (P : world B -> Prop) w es : along P w es -> P (replay w es).
Proof. intros H. specialize (H (List.length es)). rewrite firstn_all in H. exact H. Qed.

Lemma along_first (P : world B -> Prop) w es : along P w es -> P w.
Proof. intros H. exact (H 0%nat). Qed.

Lemma along_app (P : world B -> Prop) w a b : along P w a -> along P (replay w a) b -> along P w (a ++ b).
Proof.
  intros Ha Hb n. rewrite firstn_app, replay_app.
  destruct (Nat.le_gt_cases n (List.length a)) as [L|L].
  - replace (n - List.length a)%nat with 0%nat by lia. cbn. apply Ha.
  - rewrite (firstn_all2 a) by lia. apply Hb.
Qed.

Lemma along_impl (P Q : world B -> Prop) w es : (forall x, P x -> Q x) -> along P w es -> along Q w es.
Proof. intros H Hp n. apply H, Hp. Qed.

(** ** written slots belong to the table *)
Lemma written_in slots per_slot st info v imgs repos aok ps s : unique_names slots -> wf_parents slots ->
  make_plans v imgs (determine_target_group per_slot st info slots) repos aok = Ok ps ->
  In s (written ps) -> In s slots.
Proof.
  intros Hu Hw Hm Hs. destruct (c03_ok _ _ _ _ _ _ Hm) as (sp & ap & -> & _ & _ & Hsp & _ & Hap).
  unfold written in Hs. apply in_flat_map in Hs. destruct Hs as (p & Hp & Hs).
  apply in_app_or in Hp. destruct Hp as [Hp|Hp].
  - destruct (Hsp p Hp) as (s' & h & Ht & _ & Htg & _). rewrite Ht in Hs. destruct Hs as [<-|[]].
    eapply target_group_spec in Htg; eauto. tauto.
  - destruct (Hap p Hp) as [Ht _]. rewrite Ht in Hs. destruct Hs.
Qed.

(** ** status *)
Section Status.
Variable slots : list slot.
Hypothesis Hn : unique_names slots.
Hypothesis Hd : distinct_devices slots.

Lemma other_device s t : In s slots -> In t slots -> s <> t -> sl_device s <> sl_device t.
Proof.
  unfold distinct_devices in Hd. clear Hn. induction slots as [|x xs IH]; [intros []|].
  cbn [map] in Hd. inversion Hd as [|? ? Hx Hxs]; subst. intros [->|Hs] [->|Ht] Hne He; try congruence.
  - apply Hx. rewrite He. apply in_map; exact Ht.
  - apply Hx. rewrite <- He. apply in_map; exact Hs.
  - apply (IH Hxs Hs Ht Hne He).
Qed.

Lemma upd_eq {X} (m : string -> X) k v : upd m k v k = v.
Proof. unfold upd. rewrite String.eqb_refl. reflexivity. Qed.
Lemma upd_neq {X} (m : string -> X) k v k' : k <> k' -> upd m k v k' = m k'.
Proof. unfold upd. intros H. apply String.eqb_neq in H. rewrite H. reflexivity. Qed.

Lemma st_save w : status_true slots w -> status_true slots (apply w ESave).
Proof. intros H s d Hs Ho. cbn in *. apply (H s d Hs). tauto. Qed.

Lemma st_setmem w s x : In s slots -> status_true slots w ->
  (forall d, x = mkStat (Some "ok") d -> w_dev w (sl_device s) = Whole d) ->
  status_true slots (apply w (ESetMem (sl_name s) x)).
Proof.
  intros Hs H Hx t d Ht Ho. cbn in *.
  destruct (String.eqb_spec (sl_name s) (sl_name t)) as [E|E].
  - assert (s = t) by (apply (same_name_eq slots); auto). subst t. rewrite upd_eq in Ho.
    destruct Ho as [Ho|Ho]; [apply Hx; exact Ho|apply (H s d Hs); auto].
  - rewrite (upd_neq _ _ _ _ E) in Ho. apply (H t d Ht Ho).
Qed.

Definition not_ok (x : sstat) : Prop := forall d, x <> mkStat (Some "ok") d.

Lemma st_write w s c : In s slots -> status_true slots w ->
  not_ok (w_mem w (sl_name s)) -> not_ok (w_disk w (sl_name s)) ->
  status_true slots (apply w (EWrite (sl_device s) c)).
Proof.
  intros Hs H Hm Hk t d Ht Ho. cbn in *.
  destruct (String.eqb_spec (sl_name s) (sl_name t)) as [E|E].
  - assert (s = t) by (apply (same_name_eq slots); auto). subst t. exfalso.
    destruct Ho as [Ho|Ho]; [apply (Hm d Ho)|apply (Hk d Ho)].
  - rewrite upd_neq; [apply (H t d Ht Ho)|]. apply other_device; auto. congruence.
Qed.

Lemma st_boot_bad w b : status_true slots w -> status_true slots (apply w (EBad b)).
Proof. intros H s d Hs Ho. exact (H s d Hs Ho). Qed.
Lemma st_boot_act w b : status_true slots w -> status_true slots (apply w (EAct b)).
Proof. intros H s d Hs Ho. exact (H s d Hs Ho). Qed.

Lemma st_save_ev ok w : status_true slots w -> along (status_true slots) w (save_ev ok).
Proof.
  intros H. destruct ok; cbn.
  - apply along_cons; [exact H|]. apply along_nil. apply st_save; exact H.
  - apply along_nil; exact H.
Qed.

Lemma skip_true (w : world B) i s :
  negb (sl_install_same s) && opt_is (st_status (w_mem w (sl_name s))) "ok"
          && opt_eqb (im_digest i) (st_digest (w_mem w (sl_name s))) = true ->
  sl_install_same s = false /\ w_mem w (sl_name s) = mkStat (Some "ok") (im_digest i).
Proof.
  rewrite !andb_true_iff, negb_true_iff, opt_is_spec, opt_eqb_spec. intros ((H1 & H2) & H3).
  split; [exact H1|]. destruct (w_mem w (sl_name s)) as [a b]; cbn in *. congruence.
Qed.

Lemma st_slot_plan o w i s : In s slots -> status_true slots w ->
  along (status_true slots) w (snd (handle_slot_plan false o w i s)).
Proof.
  intros Hs H. unfold handle_slot_plan. cbn [negb andb].
  destruct (po_mounted o); [apply along_nil; exact H|].
  destruct (negb (sl_install_same s) && _ && _) eqn:Sk; cbn [snd].
  { apply skip_true in Sk. destruct Sk as [_ Sk].
    apply along_cons; [exact H|]. apply st_save_ev. apply st_setmem; auto.
    intros d E. apply (H s d Hs). left. rewrite Sk. exact E. }
  assert (Hp : status_true slots (apply w (ESetMem (sl_name s) (mkStat (Some "pending") None)))).
  { apply st_setmem; auto. intros d E. discriminate. }
  destruct (negb (po_save_pending o)).
  { cbn [snd]. apply along_cons; [exact H|]. apply along_nil; exact Hp. }
  assert (Hps := st_save _ Hp).
  assert (N : forall x, x = mkStat (Some "pending") None -> not_ok x) by (intros x -> d; discriminate).
  assert (Hm : not_ok (w_mem (apply (apply w (ESetMem (sl_name s) (mkStat (Some "pending") None))) ESave) (sl_name s)))
    by (apply N; cbn; apply upd_eq).
  assert (Hk : not_ok (w_disk (apply (apply w (ESetMem (sl_name s) (mkStat (Some "pending") None))) ESave) (sl_name s)))
    by (apply N; cbn; apply upd_eq).
  assert (F : forall dg d, mkStat (Some "failed") dg <> mkStat (Some "ok") d) by (intros; congruence).
  destruct (po_handler o); cbn [snd app].
  - apply along_cons; [exact H|]. apply along_cons; [exact Hp|]. apply along_cons; [exact Hps|].
    pose proof (st_write _ s Torn Hs Hps Hm Hk) as H1.
    apply along_cons; [exact H1|].
    pose proof (st_write _ s (Whole (im_digest i)) Hs H1 Hm Hk) as H2.
    apply along_cons; [exact H2|]. apply st_save_ev. apply st_setmem; auto.
    intros d E. cbn. rewrite upd_eq. congruence.
  - apply along_cons; [exact H|]. apply along_cons; [exact Hp|]. apply along_cons; [exact Hps|].
    apply st_save_ev. apply st_setmem; auto. intros d E. exfalso. exact (F _ _ E).
  - apply along_cons; [exact H|]. apply along_cons; [exact Hp|]. apply along_cons; [exact Hps|].
    pose proof (st_write _ s Torn Hs Hps Hm Hk) as H1.
    apply along_cons; [exact H1|].
    apply st_save_ev. apply st_setmem; auto. intros d E. exfalso. exact (F _ _ E).
Qed.

Lemma st_plans out ps : forall k w, (forall s, In s (written ps) -> In s slots) -> status_true slots w ->
  along (status_true slots) w (snd (run_plans false out k w ps)).
Proof.
  induction ps as [|p r IH]; cbn [run_plans]; intros k w Hw H; [apply along_nil; exact H|].
  assert (Hp : along (status_true slots) w (snd (handle_plan false (out k) w p))).
  { unfold handle_plan. destruct (pl_target p) as [s h|rp] eqn:T.
    - apply st_slot_plan; auto. apply Hw. unfold written. cbn. rewrite T. left; reflexivity.
    - cbn. apply along_cons; [exact H|]. apply along_nil; exact H. }
  destruct (handle_plan false (out k) w p) as [ok es]. cbn [snd] in Hp.
  destruct ok; [|exact Hp].
  assert (Hr : along (status_true slots) (replay w es) (snd (run_plans false out (S k) (replay w es) r))).
  { apply IH; [|apply along_last; exact Hp]. intros s Hs. apply Hw. unfold written. cbn.
    apply in_or_app. right. exact Hs. }
  destruct (run_plans false out (S k) (replay w es) r) as [ok' es']. cbn [snd] in *.
  apply along_app; assumption.
Qed.

Lemma st_boot_events tag sts o w : (forall b x, status_true slots x -> status_true slots (apply x (tag b))) ->
  status_true slots w -> along (status_true slots) w (snd (boot_events tag sts o)).
Proof.
  intros Ht. assert (G : forall l x, status_true slots x -> along (status_true slots) x (map tag l)).
  { induction l as [|a l IH]; cbn; intros x Hx; [apply along_nil; exact Hx|].
    apply along_cons; [exact Hx|]. apply IH. apply Ht; exact Hx. }
  intros H. unfold boot_events. destruct o; apply G; exact H.
Qed.

Lemma st_checked bk cf o w ps bm : cf_per_slot cf = false ->
  (forall s, In s (written ps) -> In s slots) -> status_true slots w ->
  along (status_true slots) w (snd (run_checked bk cf o w ps bm)).
Proof.
  intros Hps Hw H. unfold run_checked. rewrite Hps.
  set (b1 := match bm with None => _ | Some _ => _ end).
  assert (H1 : along (status_true slots) w (snd b1)).
  { destruct bm; cbn; [|apply along_nil; exact H]. apply st_boot_events; auto using st_boot_bad. }
  destruct b1 as [ok1 es1]. cbn [snd] in H1. destruct ok1; cbn [negb]; [|exact H1].
  assert (H2 := st_plans (ro_plans o) ps 0 _ Hw (along_last _ _ _ H1)).
  destruct (run_plans false (ro_plans o) 0 (replay w es1) ps) as [ok2 es2]. cbn [snd] in H2.
  assert (H12 := along_app _ _ _ _ H1 H2).
  destruct ok2; cbn [negb]; [|exact H12].
  destruct (ro_prune o); cbn [negb]; [|exact H12].
  destruct bm as [s|]; [|exact H12]. destruct (cf_activate cf); [|exact H12].
  assert (H3 : along (status_true slots) (replay (replay w es1) es2)
    (snd (boot_events EAct (bk_act bk (w_boot (replay (replay w es1) es2)) s) (ro_act o)))).
  { apply st_boot_events; [auto using st_boot_act|]. apply along_last; exact H2. }
  destruct (boot_events EAct _ (ro_act o)) as [ok3 es3]. cbn [snd] in H3.
  destruct ok3; cbn [snd].
  - rewrite app_assoc. apply along_app; [exact H12|]. rewrite replay_app.
    apply along_app; [exact H3|]. apply st_save_ev. apply along_last; exact H3.
  - rewrite app_assoc. apply along_app; [exact H12|]. rewrite replay_app. exact H3.
Qed.
End Status.

Lemma st_install bk cf inp w : unique_names (cf_slots cf) -> distinct_devices (cf_slots cf) ->
  wf_parents (cf_slots cf) -> cf_per_slot cf = false -> status_true (cf_slots cf) w ->
  along (status_true (cf_slots cf)) w (snd (install bk cf inp w)).
Proof.
  intros Hu Hd Hw Hp H. unfold install, default_handler.
  destruct (make_plans _ _ _ _ _) as [ps| |] eqn:Em; try (apply along_nil; exact H).
  destruct (boot_mark_slot ps None) as [bm| |]; try (apply along_nil; exact H).
  destruct (pre_install_checks (in_checks inp) ps); try (apply along_nil; exact H).
  apply st_checked; auto. intros s Hs. eapply written_in; eauto.
Qed.

Lemma restart_true slots w : status_true slots w -> status_true slots (restart w).
Proof. intros H s d Hs Ho. cbn in *. apply (H s d Hs). tauto. Qed.
End Run.

Lemma c04_ok : forall B (bk : backend B) cf w0 w,
  unique_names (cf_slots cf) -> distinct_devices (cf_slots cf) -> wf_parents (cf_slots cf) ->
  cf_per_slot cf = false ->
  status_true (cf_slots cf) w0 -> life bk cf w0 w -> status_true (cf_slots cf) w.
Proof.
  intros B bk cf w0 w Hu Hd Hw Hp H0 L. induction L as [w|w w1 inp L IH|w w1 inp n L IH|w w1 L IH].
  - exact H0.
  - apply along_last. apply st_install; auto.
  - apply restart_true. apply st_install; auto.
  - apply restart_true; auto.
Qed.

(** a torn slot is never recorded as ok with a digest, hence never skipped *)
Lemma c04_torn_ok : forall B (bk : backend B) cf w0 w s,
  unique_names (cf_slots cf) -> distinct_devices (cf_slots cf) -> wf_parents (cf_slots cf) ->
  cf_per_slot cf = false ->
  status_true (cf_slots cf) w0 -> life bk cf w0 w ->
  In s (cf_slots cf) -> w_dev w (sl_device s) = Torn ->
  forall i o, po_mounted o = false -> po_save_pending o = true -> po_handler o = HOk ->
    In (EWrite (sl_device s) (Whole (im_digest i))) (snd (handle_slot_plan false o w i s)).
Proof.
  intros B bk cf w0 w s Hu Hd Hw Hp H0 L Hs Ht i o Hm Hsp Hh.
  pose proof (c04_ok _ _ _ _ _ Hu Hd Hw Hp H0 L) as H.
  unfold handle_slot_plan. rewrite Hm, Hsp, Hh. cbn [negb andb].
  destruct (negb (sl_install_same s) && _ && _) eqn:Sk.
  - apply skip_true in Sk. destruct Sk as [_ Sk].
    assert (w_dev w (sl_device s) = Whole (im_digest i)) by (apply (H s _ Hs); auto). congruence.
  - cbn [snd app]. do 3 right. left. reflexivity.
Qed.

(** C06 *)
Lemma c06_skip_ok : forall B per_slot o (w : world B) i s,
  fst (handle_slot_plan per_slot o w i s) = true ->
  (forall c, ~ In (EWrite (sl_device s) c) (snd (handle_slot_plan per_slot o w i s))) ->
  sl_install_same s = false /\
  st_status (w_mem w (sl_name s)) = Some "ok" /\ st_digest (w_mem w (sl_name s)) = im_digest i.
Proof.
  intros B per_slot o w i s. unfold handle_slot_plan.
  destruct (po_mounted o); [discriminate|].
  destruct (negb (sl_install_same s) && _ && _) eqn:Sk.
  { intros _ _. apply skip_true in Sk. destruct Sk as [H1 ->]. auto. }
  destruct (negb per_slot && negb (po_save_pending o)); [discriminate|].
  destruct (po_handler o); try discriminate. cbn [fst snd]. intros _ Hw. exfalso.
  apply (Hw Torn). apply in_or_app. right. left. reflexivity.
Qed.

Lemma c06_content_ok : forall B per_slot o (w : world B) slots i s,
  In s slots -> status_true slots w ->
  fst (handle_slot_plan per_slot o w i s) = true ->
  w_dev (replay w (snd (handle_slot_plan per_slot o w i s))) (sl_device s) = Whole (im_digest i).
Proof.
  intros B per_slot o w slots i s Hs Ht. unfold handle_slot_plan.
  destruct (po_mounted o); [discriminate|].
  destruct (negb (sl_install_same s) && _ && _) eqn:Sk.
  { intros _. apply skip_true in Sk. destruct Sk as [_ Sk].
    assert (w_dev w (sl_device s) = Whole (im_digest i)) by (apply (Ht s _ Hs); left; congruence).
    cbn [snd]. destruct (po_save_done o); exact H. }
  destruct (negb per_slot && negb (po_save_pending o)); [discriminate|].
  destruct (po_handler o); try discriminate. cbn [fst snd]. intros ->. cbn [save_ev].
  rewrite replay_app. cbn. rewrite upd_eq. congruence.
Qed.

Lemma NoDup_app_r {A} (a b : list A) : NoDup (a ++ b) -> NoDup b.
Proof. induction a as [|x a IH]; cbn; [auto|]. intros H. inversion H; auto. Qed.

(** ** the devices and the boot state while plans are executed *)
Section Frame.
Context {B : Type}.

Definition frame (ps : list plan) (w0 w : world B) : Prop :=
  w_boot w = w_boot w0 /\
  forall d, ~ In d (map sl_device (written ps)) -> w_dev w d = w_dev w0 d.

Lemma frame_refl ps w : frame ps w w.
Proof. split; auto. Qed.

Lemma frame_slot_plan per_slot o (w : world B) i s :
  along (fun x => w_boot x = w_boot w /\ forall d, d <> sl_device s -> w_dev x d = w_dev w d) w
    (snd (handle_slot_plan per_slot o w i s)).
Proof.
  set (P := fun x => _).
  assert (Hm : forall x n st, P x -> P (apply x (ESetMem n st))) by (intros x n st H; exact H).
  assert (Hs : forall x, P x -> P (apply x ESave)) by (intros x H; exact H).
  assert (Hw : forall x c, P x -> P (apply x (EWrite (sl_device s) c))).
  { intros x c [H1 H2]. split; [exact H1|]. intros d Hd. cbn. rewrite upd_neq by congruence. auto. }
  assert (H0 : P w) by (split; auto).
  assert (Hsv : forall ok x, P x -> along P x (save_ev ok)).
  { intros ok x Hx. destruct ok; cbn; repeat (apply along_cons; auto); apply along_nil; auto. }
  unfold handle_slot_plan.
  destruct (po_mounted o); [apply along_nil; exact H0|].
  destruct (negb (sl_install_same s) && _ && _); cbn [snd].
  { apply along_cons; auto. }
  destruct (negb per_slot && negb (po_save_pending o)); cbn [snd].
  { apply along_cons; auto. apply along_nil; auto. }
  assert (Hpre : along P w (if per_slot then [] else [ESetMem (sl_name s) (mkStat (Some "pending") None); ESave])).
  { destruct per_slot; [apply along_nil; auto|]. repeat (apply along_cons; auto). apply along_nil; auto. }
  assert (Hl := along_last _ _ _ Hpre).
  destruct (po_handler o); cbn [snd]; apply along_app; auto; cbn [app]; repeat (apply along_cons; auto).
Qed.

Lemma frame_plans per_slot out ps : forall k (w : world B),
  along (frame ps w) w (snd (run_plans per_slot out k w ps)).
Proof.
  induction ps as [|p r IH]; cbn [run_plans]; intros k w; [apply along_nil, frame_refl|].
  assert (Hp : along (frame (p :: r) w) w (snd (handle_plan per_slot (out k) w p))).
  { unfold handle_plan. destruct (pl_target p) as [s h|rp] eqn:T.
    - eapply along_impl; [|apply frame_slot_plan]. intros x [H1 H2]. split; [exact H1|].
      intros d Hd. apply H2. intros ->. apply Hd. unfold written. cbn. rewrite T. left; reflexivity.
    - cbn. apply along_cons; [apply frame_refl|]. apply along_nil, frame_refl. }
  destruct (handle_plan per_slot (out k) w p) as [ok es]. cbn [snd] in Hp.
  destruct ok; [|exact Hp].
  specialize (IH (S k) (replay w es)).
  destruct (run_plans per_slot out (S k) (replay w es) r) as [ok' es']. cbn [snd] in *.
  apply along_app; [exact Hp|]. eapply along_impl; [|exact IH].
  intros x [H1 H2]. destruct (along_last _ _ _ Hp) as [H3 H4]. split; [congruence|].
  intros d Hd. rewrite H2; [apply H4; exact Hd|]. intros Hi. apply Hd. unfold written in *. cbn.
  rewrite map_app. apply in_or_app. right. exact Hi.
Qed.

(** after success, every written slot is complete *)
Lemma plans_whole slots out ps : forall k (w : world B),
  unique_names slots -> distinct_devices slots ->
  (forall s, In s (written ps) -> In s slots) -> NoDup (map sl_device (written ps)) ->
  status_true slots w ->
  fst (run_plans false out k w ps) = true ->
  forall p s h, In p ps -> pl_target p = TSlot s h ->
    w_dev (replay w (snd (run_plans false out k w ps))) (sl_device s) = Whole (im_digest (pl_image p)).
Proof.
  induction ps as [|p r IH]; cbn [run_plans]; intros k w Hu Hd Hin Hnd Ht Hok q s h Hq T; [destruct Hq|].
  assert (Hst : along (status_true slots) w (snd (handle_plan false (out k) w p))).
  { unfold handle_plan. destruct (pl_target p) as [s' h'|rp] eqn:T'.
    - apply st_slot_plan; auto. apply Hin. unfold written. cbn. rewrite T'. left; reflexivity.
    - cbn. apply along_cons; [exact Ht|]. apply along_nil; exact Ht. }
  destruct (handle_plan false (out k) w p) as [ok es] eqn:E. cbn [snd] in Hst.
  destruct ok; [|discriminate].
  pose proof (frame_plans false out r (S k) (replay w es)) as F. apply along_last in F.
  specialize (IH (S k) (replay w es) Hu Hd).
  destruct (run_plans false out (S k) (replay w es) r) as [ok' es']. cbn [fst snd] in *. subst ok'.
  rewrite replay_app.
  assert (Hr : NoDup (map sl_device (written r))).
  { unfold written in Hnd. cbn in Hnd. rewrite map_app in Hnd. apply NoDup_app_r in Hnd. exact Hnd. }
  assert (Hir : forall s0, In s0 (written r) -> In s0 slots).
  { intros s0 H0. apply Hin. unfold written. cbn. apply in_or_app. right. exact H0. }
  destruct Hq as [->|Hq].
  - destruct F as [_ F]. rewrite F.
    + unfold handle_plan in E. rewrite T in E.
      pose proof (c06_content_ok B false (out k) w slots (pl_image q) s) as C. rewrite E in C. cbn in C.
      apply C; auto. apply Hin. unfold written. cbn. rewrite T. left; reflexivity.
    + unfold written in Hnd. cbn in Hnd. rewrite T in Hnd. cbn in Hnd. inversion Hnd; subst. assumption.
  - apply (IH Hir Hr (along_last _ _ _ Hst) eq_refl q s h Hq T).
Qed.
End Frame.

Lemma written_nodup slots per_slot st info v imgs repos aok ps : unique_names slots -> wf_parents slots ->
  distinct_devices slots ->
  make_plans v imgs (determine_target_group per_slot st info slots) repos aok = Ok ps ->
  NoDup (map sl_device (written ps)).
Proof.
  intros Hu Hw Hd Hm. assert (Hin : forall s, In s (written ps) -> In s slots) by (intros; eapply written_in; eauto).
  destruct (c03_ok _ _ _ _ _ _ Hm) as (sp & ap & -> & Hnd & _ & Hsp & _ & Hap).
  unfold written in *. rewrite flat_map_app in *.
  assert (Ha : flat_map (fun p => match pl_target p with TSlot s _ => [s] | TRepo _ => [] end) ap = []).
  { clear - Hap. induction ap as [|p r IH]; [reflexivity|]. cbn.
    destruct (Hap p (or_introl eq_refl)) as [-> _]. cbn. apply IH. intros q Hq. apply Hap. right; exact Hq. }
  rewrite Ha, app_nil_r in *. clear Ha Hap Hm.
  induction sp as [|p r IH]; [constructor|]. cbn [map flat_map] in *.
  destruct (Hsp p (or_introl eq_refl)) as (s & h & Ht & _ & Htg & _). rewrite Ht in *. cbn [app map].
  inversion Hnd as [|? ? Hx Hr]; subst.
  constructor.
  - intros Hi. apply in_map_iff in Hi. destruct Hi as (t & Hdt & Hi).
    assert (s = t).
    { destruct (String.eqb_spec (sl_name s) (sl_name t)) as [E|E].
      - apply (same_name_eq slots); auto. apply Hin; left; reflexivity. apply Hin; right; exact Hi.
      - exfalso. apply (other_device slots Hd t s); auto; try congruence.
        apply Hin; right; exact Hi. apply Hin; left; reflexivity. }
    subst t. apply in_flat_map in Hi. destruct Hi as (q & Hq & Hs).
    destruct (Hsp q (or_intror Hq)) as (s' & h' & Ht' & _ & Htg' & _). rewrite Ht' in Hs. destruct Hs as [->|[]].
    apply target_group_spec in Htg; auto. apply target_group_spec in Htg'; auto.
    destruct Htg as (_ & C1 & _), Htg' as (_ & C2 & _).
    apply Hx. rewrite <- C1, C2. apply (in_map (fun p => im_class (pl_image p)) r q Hq).
  - apply IH; auto.
    all: first [intros q Hq; apply Hsp; right; exact Hq | intros t Ht'; apply Hin; right; exact Ht'].
Qed.

(** ** order of events *)
Section Order.
Context {B : Type}.

Definition is_write (e : event B) : Prop := match e with EWrite _ _ => True | _ => False end.
Definition is_bad (e : event B) : Prop := match e with EBad _ => True | _ => False end.
Definition is_act (e : event B) : Prop := match e with EAct _ => True | _ => False end.

Lemma plans_events per_slot out ps : forall k (w : world B) e,
  In e (snd (run_plans per_slot out k w ps)) ->
  ~ is_bad e /\ ~ is_act e /\
  (forall d c, e = EWrite d c -> In d (map sl_device (written ps))).
Proof.
  induction ps as [|p r IH]; cbn [run_plans]; intros k w e He; [destruct He|].
  assert (Hp : In e (snd (handle_plan per_slot (out k) w p)) ->
    ~ is_bad e /\ ~ is_act e /\ (forall d c, e = EWrite d c -> In d (map sl_device (written (p :: r))))).
  { clear He. unfold handle_plan. destruct (pl_target p) as [s h|rp] eqn:T.
    - assert (HW : forall d c, EWrite d c = @EWrite B (sl_device s) c -> In d (map sl_device (written (p :: r)))).
      { intros d c Hd. unfold written. cbn. rewrite T. left. congruence. }
      assert (G : forall x : event B, (exists n st, x = ESetMem n st) \/ x = ESave \/ (exists c, x = EWrite (sl_device s) c) ->
         ~ is_bad x /\ ~ is_act x /\ (forall d c, x = EWrite d c -> In d (map sl_device (written (p :: r))))).
      { intros x [(n & st & ->)|[->|(c & ->)]]; (split; [intros []|split; [intros []|]]); intros d c'; try discriminate.
        intros Hd. apply (HW d c'). congruence. }
      unfold handle_slot_plan.
      destruct (po_mounted (out k)); [intros []|].
      destruct (negb (sl_install_same s) && _ && _); cbn [snd].
      { destruct (po_save_done (out k)); cbn; intros He; apply G; intuition (subst; eauto). }
      destruct (negb per_slot && negb (po_save_pending (out k))).
      { cbn. intros He; apply G; intuition (subst; eauto). }
      destruct per_slot, (po_handler (out k)), (po_save_done (out k)); cbn; intros He; apply G;
        intuition (subst; eauto).
    - cbn. intros [<-|[]]. split; [intros []|split; [intros []|]]. discriminate. }
  destruct (handle_plan per_slot (out k) w p) as [ok es] eqn:E. cbn [snd] in Hp.
  destruct ok; [|apply Hp; exact He].
  specialize (IH (S k) (replay w es) e).
  destruct (run_plans per_slot out (S k) (replay w es) r) as [ok' es']. cbn [snd] in *.
  apply in_app_or in He. destruct He as [He|He]; [apply Hp; exact He|].
  destruct (IH He) as (H1 & H2 & H3). split; [exact H1|]. split; [exact H2|].
  intros d c Hd. specialize (H3 d c Hd). unfold written in *. cbn. rewrite map_app. apply in_or_app. right; exact H3.
Qed.

Lemma boot_events_in tag sts o (e : event B) : In e (snd (boot_events tag sts o)) -> exists b, In b sts /\ e = tag b.
Proof.
  unfold boot_events. destruct o as [k|]; cbn; intros H; apply in_map_iff in H; destruct H as (b & <- & Hb).
  - exists b. split; [|reflexivity]. rewrite <- (firstn_skipn k sts). apply in_or_app. left; exact Hb.
  - eauto.
Qed.

Lemma bad_replay sts : forall w : world B, w_boot (replay w (map EBad sts)) = last sts (w_boot w) /\
  (forall d, w_dev (replay w (map EBad sts)) d = w_dev w d) /\
  w_mem (replay w (map EBad sts)) = w_mem w /\ w_disk (replay w (map EBad sts)) = w_disk w.
Proof.
  induction sts as [|b r IH]; intros w; [repeat split|].
  cbn [map]. change (replay w (EBad b :: map EBad r)) with (replay (apply w (EBad b)) (map EBad r)).
  destruct (IH (apply w (EBad b))) as (H1 & H2 & H3 & H4). rewrite H1, H3, H4.
  split; [|split; [exact H2|split; reflexivity]]. cbn [apply w_boot]. destruct r; [reflexivity|]. cbn [last]. 
  clear. revert b0. induction r; intros; [reflexivity|]. cbn [last]. apply IHr.
Qed.

(** first list entirely before: if [e] does not occur in [a], a split of [a ++ b] at [e] is a split of [b] *)
Lemma split_after {A} (a b pre post : list A) e : a ++ b = pre ++ e :: post -> ~ In e a ->
  exists pre', pre = a ++ pre' /\ b = pre' ++ e :: post.
Proof.
  revert pre. induction a as [|x a IH]; cbn; intros pre H Hn; [eauto|].
  destruct pre as [|y pre]; cbn in H.
  - inversion H; subst. exfalso. apply Hn. left; reflexivity.
  - inversion H; subst. destruct (IH pre H2) as (p' & -> & ->); [tauto|]. eauto.
Qed.

(** or it is a split of [a] *)
Lemma split_before {A} (a b pre post : list A) e : a ++ b = pre ++ e :: post -> ~ In e b ->
  exists post', post = post' ++ b /\ a = pre ++ e :: post'.
Proof.
  revert pre. induction a as [|x a IH]; cbn; intros pre H Hn.
  - exfalso. apply Hn. rewrite H. apply in_or_app. right; left; reflexivity.
  - destruct pre as [|y pre]; cbn in H; inversion H; subst.
    + exists a. auto.
    + destruct (IH pre H2 Hn) as (p' & -> & ->). eauto.
Qed.
End Order.

Definition checked_ok cf inp ps bm : Prop :=
  planned cf inp = Ok ps /\ boot_mark_slot ps None = Ok bm /\ pre_install_checks (in_checks inp) ps = Ok tt.

Lemma install_cases B (bk : backend B) cf inp w :
  (exists r, install bk cf inp w = (r, []) /\ r <> Ok tt) \/
  exists ps bm, checked_ok cf inp ps bm /\ install bk cf inp w = run_checked bk cf (in_out inp) w ps bm.
Proof.
  unfold install, default_handler, checked_ok, planned.
  destruct (make_plans _ _ _ _ _) as [ps| |] eqn:E1;
    [|left; exists Err; split; [reflexivity|discriminate]|left; exists Abort; split; [reflexivity|discriminate]].
  destruct (boot_mark_slot ps None) as [bm| |] eqn:E2;
    [|left; exists Err; split; [reflexivity|discriminate]|left; exists Abort; split; [reflexivity|discriminate]].
  destruct (pre_install_checks (in_checks inp) ps) as [[]| |] eqn:E3;
    [|left; exists Err; split; [reflexivity|discriminate]|left; exists Abort; split; [reflexivity|discriminate]].
  right. exists ps, bm. repeat split; auto.
Qed.

(** C05: when the boot loader is first told to activate, everything is written *)
Lemma c05_activate_ok : forall B (bk : backend B) cf inp w r es pre post b,
  unique_names (cf_slots cf) -> distinct_devices (cf_slots cf) -> wf_parents (cf_slots cf) ->
  cf_per_slot cf = false -> status_true (cf_slots cf) w ->
  install bk cf inp w = (r, es) -> es = pre ++ EAct b :: post ->
  cf_activate cf = true /\
  exists ps, planned cf inp = Ok ps /\
    (forall p s h, In p ps -> pl_target p = TSlot s h ->
       w_dev (replay w pre) (sl_device s) = Whole (im_digest (pl_image p))) /\
    (forall d c, ~ In (EWrite d c) post).
Proof.
  intros B bk cf inp w r es pre post b Hu Hd Hw Hp Ht Hi He.
  destruct (install_cases B bk cf inp w) as [(r' & E & _)|(ps & bm & (Hpl & Hbm & Hck) & E)]; rewrite Hi in E.
  { inversion E; subst. destruct pre; discriminate. }
  assert (Hin : forall s, In s (written ps) -> In s (cf_slots cf)) by (intros; eapply written_in; eauto).
  assert (Hnd : NoDup (map sl_device (written ps))) by (eapply written_nodup; eauto).
  unfold run_checked in E. rewrite Hp in E.
  set (b1 := match bm with None => _ | Some _ => _ end) in E.
  assert (H1 : forall e, In e (snd b1) -> is_bad e).
  { intros e Hx. destruct bm; cbn in Hx; [|destruct Hx]. apply boot_events_in in Hx. destruct Hx as (x & _ & ->). exact I. }
  assert (S1 : along (status_true (cf_slots cf)) w (snd b1)).
  { destruct bm; cbn; [|apply along_nil; exact Ht]. apply st_boot_events; auto using st_boot_bad. }
  destruct b1 as [ok1 es1]. cbn [snd] in H1, S1.
  assert (NE1 : ~ In (EAct b) es1) by (intros Hx; exact (H1 _ Hx)).
  destruct ok1; cbn [negb] in E.
  2:{ assert (Hes : es = es1) by congruence. exfalso. apply NE1. rewrite <- Hes, He. apply in_or_app; right; left; reflexivity. }
  pose proof (plans_events false (ro_plans (in_out inp)) ps 0 (replay w es1)) as PE.
  pose proof (plans_whole (cf_slots cf) (ro_plans (in_out inp)) ps 0 (replay w es1) Hu Hd Hin Hnd (along_last _ _ _ S1)) as PW.
  destruct (run_plans false (ro_plans (in_out inp)) 0 (replay w es1) ps) as [ok2 es2]. cbn [fst snd] in PE, PW.
  assert (NE2 : ~ In (EAct b) (es1 ++ es2)).
  { intros Hx. apply in_app_or in Hx. destruct Hx as [Hx|Hx]; [exact (NE1 Hx)|]. destruct (PE _ Hx) as (_ & H2 & _). apply H2. exact I. }
  assert (NE : forall l, es = l -> es1 ++ es2 = l -> False).
  { intros l Hes Hl. apply NE2. rewrite Hl, <- Hes, He. apply in_or_app; right; left; reflexivity. }
  destruct ok2; cbn [negb] in E; [|exfalso; eapply NE; eauto; congruence].
  destruct (ro_prune (in_out inp)); cbn [negb] in E; [|exfalso; eapply NE; eauto; congruence].
  destruct bm as [s|]; [|exfalso; eapply NE; eauto; congruence].
  destruct (cf_activate cf); [|exfalso; eapply NE; eauto; congruence].
  split; [reflexivity|]. exists ps. split; [exact Hpl|].
  pose proof (boot_events_in (@EAct B) (bk_act bk (w_boot (replay (replay w es1) es2)) s) (ro_act (in_out inp))) as BE.
  destruct (boot_events EAct _ (ro_act (in_out inp))) as [ok3 es3]. cbn [snd] in BE.
  assert (exists tl, es = (es1 ++ es2) ++ tl /\ forall e, In e tl -> is_act e \/ e = ESave) as (tl & Htl & Hact).
  { destruct ok3.
    - exists (es3 ++ save_ev (ro_act_save (in_out inp))). split; [rewrite <- app_assoc; congruence|].
      intros e Hx. apply in_app_or in Hx. destruct Hx as [Hx|Hx].
      + destruct (BE _ Hx) as (x & _ & ->). left; exact I.
      + destruct (ro_act_save (in_out inp)); cbn in Hx; intuition.
    - exists es3. split; [rewrite <- app_assoc; congruence|]. intros e Hx. destruct (BE _ Hx) as (x & _ & ->). left; exact I. }
  assert (Hs : (es1 ++ es2) ++ tl = pre ++ EAct b :: post) by (rewrite <- Htl; exact He).
  destruct (split_after _ _ _ _ _ Hs NE2) as (pre' & -> & Htl').
  split.
  - intros p t h Hp' T. rewrite replay_app.
    assert (Hsame : forall l x d, (forall e, In e l -> is_act e \/ e = @ESave B) -> w_dev (replay x l) d = w_dev x d).
    { induction l as [|e l IH]; intros x d He'; [reflexivity|].
      change (replay x (e :: l)) with (replay (apply x e) l). rewrite IH by (intros; apply He'; right; auto).
      destruct (He' e (or_introl eq_refl)) as [H|H]; destruct e; cbn in H; try contradiction; try discriminate; reflexivity. }
    rewrite Hsame by (intros e Hx; apply Hact; rewrite Htl'; apply in_or_app; left; exact Hx).
    rewrite replay_app. eapply PW; eauto.
  - intros d c Hx. destruct (Hact (EWrite d c)) as [H|H]; [|exact H|discriminate].
    rewrite Htl'. apply in_or_app; right; right; exact Hx.
Qed.

(** C05: before the first write, the target is completely marked bad; only planned slots are written *)
Lemma c05_bad_first_ok : forall B (bk : backend B) cf inp w r es pre post d c,
  install bk cf inp w = (r, es) -> es = pre ++ EWrite d c :: post ->
  exists ps bm, planned cf inp = Ok ps /\ boot_mark_slot ps None = Ok bm /\
    pre_install_checks (in_checks inp) ps = Ok tt /\
    (exists s, In s (written ps) /\ sl_device s = d) /\
    match bm with
    | Some s => w_boot (replay w pre) = last (bk_bad bk (w_boot w) s) (w_boot w) /\
                (exists rest, pre = map EBad (bk_bad bk (w_boot w) s) ++ rest)
    | None => w_boot (replay w pre) = w_boot w
    end.
Proof.
  intros B bk cf inp w r es pre post d c Hi He.
  destruct (install_cases B bk cf inp w) as [(r' & E & _)|(ps & bm & (Hpl & Hbm & Hck) & E)]; rewrite Hi in E.
  { inversion E; subst. destruct pre; discriminate. }
  exists ps, bm. split; [exact Hpl|]. split; [exact Hbm|]. split; [exact Hck|].
  unfold run_checked in E.
  set (b1 := match bm with None => _ | Some _ => _ end) in E.
  assert (H1 : forall e, In e (snd b1) -> is_bad e).
  { intros e Hx. destruct bm; cbn in Hx; [|destruct Hx]. apply boot_events_in in Hx. destruct Hx as (x & _ & ->). exact I. }
  assert (Hb1 : fst b1 = true -> snd b1 = match bm with Some s => map EBad (bk_bad bk (w_boot w) s) | None => [] end).
  { destruct bm; cbn; [|reflexivity]. unfold boot_events. destruct (ro_bad (in_out inp)); cbn; [discriminate|reflexivity]. }
  destruct b1 as [ok1 es1]. cbn [fst snd] in H1, Hb1.
  assert (NE1 : ~ In (EWrite d c) es1) by (intros Hx; exact (H1 _ Hx)).
  destruct ok1; cbn [negb] in E.
  2:{ assert (Hes : es = es1) by congruence. exfalso. apply NE1. rewrite <- Hes, He. apply in_or_app; right; left; reflexivity. }
  specialize (Hb1 eq_refl).
  pose proof (plans_events (cf_per_slot cf) (ro_plans (in_out inp)) ps 0 (replay w es1)) as PE.
  pose proof (frame_plans (cf_per_slot cf) (ro_plans (in_out inp)) ps 0 (replay w es1)) as FP.
  destruct (run_plans (cf_per_slot cf) (ro_plans (in_out inp)) 0 (replay w es1) ps) as [ok2 es2]. cbn [fst snd] in PE, FP.
  assert (exists tl, es = es1 ++ es2 ++ tl /\ ~ In (EWrite d c) tl) as (tl & Htl & Hntl).
  { destruct ok2; cbn [negb] in E; [|exists []; rewrite app_nil_r; split; [congruence|intros []]].
    destruct (ro_prune (in_out inp)); cbn [negb] in E; [|exists []; rewrite app_nil_r; split; [congruence|intros []]].
    destruct bm as [s|]; [|exists []; rewrite app_nil_r; split; [congruence|intros []]].
    destruct (cf_activate cf); [|exists []; rewrite app_nil_r; split; [congruence|intros []]].
    pose proof (boot_events_in (@EAct B) (bk_act bk (w_boot (replay (replay w es1) es2)) s) (ro_act (in_out inp))) as BE.
    destruct (boot_events EAct _ (ro_act (in_out inp))) as [ok3 es3]. cbn [snd] in BE.
    assert (N3 : ~ In (EWrite d c) es3) by (intros Hx; destruct (BE _ Hx) as (x & _ & Hx'); discriminate).
    destruct ok3.
    - exists (es3 ++ save_ev (ro_act_save (in_out inp))). split; [congruence|].
      intros Hx. apply in_app_or in Hx. destruct Hx as [Hx|Hx]; [exact (N3 Hx)|].
      destruct (ro_act_save (in_out inp)); cbn in Hx; intuition discriminate.
    - exists es3. split; [congruence|exact N3]. }
  rewrite Htl in He. destruct (split_after _ _ _ _ _ He NE1) as (pre' & -> & He').
  destruct (split_before _ _ _ _ _ He' Hntl) as (post' & _ & Hes2).
  assert (In (EWrite d c) es2) as Hin by (rewrite Hes2; apply in_or_app; right; left; reflexivity).
  destruct (PE _ Hin) as (_ & _ & Hdev). specialize (Hdev d c eq_refl).
  apply in_map_iff in Hdev. destruct Hdev as (s & Hs1 & Hs2). split; [eauto|].
  rewrite replay_app.
  assert (Hboot : w_boot (replay (replay w es1) pre') = w_boot (replay w es1)).
  { specialize (FP (List.length pre')). rewrite Hes2 in FP. rewrite firstn_app, Nat.sub_diag, firstn_all in FP.
    cbn in FP. rewrite app_nil_r in FP. apply FP. }
  rewrite Hboot, Hb1. destruct bm as [t|].
  - split; [apply bad_replay|]. exists pre'. reflexivity.
  - reflexivity.
Qed.

(** C05: success means everything is written and activated (if configured) *)
Lemma c05_success_ok : forall B (bk : backend B) cf inp w es,
  unique_names (cf_slots cf) -> distinct_devices (cf_slots cf) -> wf_parents (cf_slots cf) ->
  cf_per_slot cf = false -> status_true (cf_slots cf) w ->
  install bk cf inp w = (Ok tt, es) ->
  exists ps bm, planned cf inp = Ok ps /\ boot_mark_slot ps None = Ok bm /\
    (forall p s h, In p ps -> pl_target p = TSlot s h ->
       w_dev (replay w es) (sl_device s) = Whole (im_digest (pl_image p))) /\
    (forall s, In s (cf_slots cf) -> ~ In s (written ps) -> w_dev (replay w es) (sl_device s) = w_dev w (sl_device s)) /\
    match bm with
    | None => w_boot (replay w es) = w_boot w
    | Some s => let b1 := last (bk_bad bk (w_boot w) s) (w_boot w) in
                w_boot (replay w es) = if cf_activate cf then last (bk_act bk b1 s) b1 else b1
    end.
Proof.
  intros B bk cf inp w es Hu Hd Hw Hp Ht Hi.
  destruct (install_cases B bk cf inp w) as [(r' & E & N)|(ps & bm & (Hpl & Hbm & Hck) & E)]; rewrite Hi in E.
  { inversion E; subst. congruence. }
  assert (Hin : forall s, In s (written ps) -> In s (cf_slots cf)) by (intros; eapply written_in; eauto).
  assert (Hnd : NoDup (map sl_device (written ps))) by (eapply written_nodup; eauto).
  exists ps, bm. split; [exact Hpl|]. split; [exact Hbm|].
  unfold run_checked in E. rewrite Hp in E.
  set (b1 := match bm with None => _ | Some _ => _ end) in E.
  assert (S1 : along (status_true (cf_slots cf)) w (snd b1)).
  { destruct bm; cbn; [|apply along_nil; exact Ht]. apply st_boot_events; auto using st_boot_bad. }
  assert (Hb1 : fst b1 = true -> snd b1 = match bm with Some s => map EBad (bk_bad bk (w_boot w) s) | None => [] end).
  { destruct bm; cbn; [|reflexivity]. unfold boot_events. destruct (ro_bad (in_out inp)); cbn; [discriminate|reflexivity]. }
  destruct b1 as [ok1 es1]. cbn [fst snd] in S1, Hb1.
  destruct ok1; cbn [negb] in E; [|discriminate]. specialize (Hb1 eq_refl).
  pose proof (frame_plans false (ro_plans (in_out inp)) ps 0 (replay w es1)) as FP. apply along_last in FP.
  pose proof (plans_whole (cf_slots cf) (ro_plans (in_out inp)) ps 0 (replay w es1) Hu Hd Hin Hnd (along_last _ _ _ S1)) as PW.
  destruct (run_plans false (ro_plans (in_out inp)) 0 (replay w es1) ps) as [ok2 es2]. cbn [fst snd] in FP, PW.
  destruct ok2; cbn [negb] in E; [|discriminate]. specialize (PW eq_refl).
  destruct (ro_prune (in_out inp)); cbn [negb] in E; [|discriminate].
  destruct FP as [FB FD].
  assert (D1 : forall d, w_dev (replay w es1) d = w_dev w d).
  { rewrite Hb1. intros d. destruct bm; [apply bad_replay|reflexivity]. }
  assert (FD' : forall s, In s (cf_slots cf) -> ~ In s (written ps) ->
     w_dev (replay (replay w es1) es2) (sl_device s) = w_dev w (sl_device s)).
  { intros s Hs Hns. rewrite FD; [apply D1|]. intros Hx. apply in_map_iff in Hx. destruct Hx as (t & He & Hx).
    apply (other_device (cf_slots cf) Hd t s); auto. intros ->. exact (Hns Hx). }
  destruct bm as [s|].
  - assert (B1 : w_boot (replay (replay w es1) es2) = last (bk_bad bk (w_boot w) s) (w_boot w)).
    { rewrite FB, Hb1. apply bad_replay. }
    destruct (cf_activate cf).
    + unfold boot_events in E. destruct (ro_act (in_out inp)); [discriminate|].
      assert (A : forall sts w1, w_boot (replay w1 (map EAct sts)) = last sts (w_boot w1) /\
               forall d, w_dev (replay w1 (map (@EAct B) sts)) d = w_dev w1 d).
      { induction sts as [|b r IH]; intros w1; [split; reflexivity|].
        cbn [map]. change (replay w1 (EAct b :: map EAct r)) with (replay (apply w1 (EAct b)) (map EAct r)).
        destruct (IH (apply w1 (EAct b))) as (H1 & H2). rewrite H1. split; [|exact H2]. cbn [apply w_boot].
        destruct r; [reflexivity|]. cbn [last]. clear. revert b0. induction r; intros; [reflexivity|]. cbn [last]. apply IHr. }
      assert (SV : forall w1, w_boot (replay w1 (@save_ev B (ro_act_save (in_out inp)))) = w_boot w1 /\
                 forall d, w_dev (replay w1 (@save_ev B (ro_act_save (in_out inp)))) d = w_dev w1 d).
      { intros w1. destruct (ro_act_save (in_out inp)); cbn; split; reflexivity. }
      assert (Ee : es = es1 ++ es2 ++ map EAct (bk_act bk (w_boot (replay (replay w es1) es2)) s) ++ save_ev (ro_act_save (in_out inp)))
        by congruence.
      rewrite Ee, !replay_app.
      set (w2 := replay (replay w es1) es2) in *.
      destruct (SV (replay w2 (map EAct (bk_act bk (w_boot w2) s)))) as [V1 V2].
      destruct (A (bk_act bk (w_boot w2) s) w2) as [A1 A2].
      split; [|split].
      * intros p t h Hpp T. rewrite V2, A2. eapply PW; eauto.
      * intros t Hs Hns. rewrite V2, A2. apply FD'; auto.
      * cbv zeta. rewrite V1, A1, B1. reflexivity.
    + assert (Ee : es = es1 ++ es2) by congruence. rewrite Ee, replay_app. split; [|split]; eauto.
  - assert (Ee : es = es1 ++ es2) by congruence. rewrite Ee, replay_app. split; [|split]; eauto.
    rewrite FB, Hb1. reflexivity.
Qed.
