(** C01 for whole installations: combines target selection, checks and execution. *)
From Verif Require Import Base BaseLemmas Slot Image Handlers Install InstallSpec InstallProofs InstallRun InstallRunSpec InstallRunProofs.

(** every device write during an installation hits a slot that is neither the booted slot nor
    one of its children, is not read-only, exists, and is not mounted (except for
    allow-mounted slots written by an install hook) *)
Lemma c01_writes_ok : forall B (bk : backend B) cf inp (w : world B) r es realdev bootslot booted d c,
  unique_names (cf_slots cf) -> wf_parents (cf_slots cf) ->
  determine_slot_states realdev (Some bootslot) (cf_slots cf) = Ok (in_states inp) ->
  In booted (cf_slots cf) -> in_states inp (sl_name booted) = ST_BOOTED -> sl_parent booted = None ->
  install bk cf inp w = (r, es) -> In (EWrite d c) es ->
  exists s, In s (cf_slots cf) /\ sl_device s = d /\
    sl_name s <> sl_name booted /\ sl_parent s <> Some (sl_name booted) /\
    in_states inp (sl_name s) = ST_INACTIVE /\ sl_readonly s = false /\
    ck_device (in_checks inp) (sl_name s) = true /\
    (ck_mounted (in_checks inp) (sl_name s) = true ->
       ck_allow_mounted (in_checks inp) (sl_name s) = true /\
       exists i, In i (in_images inp) /\ im_class i = sl_class s /\ im_install i = true).
Proof.
  intros B bk cf inp w r es realdev bs booted d c HU HW HD HB HBs HBp Hi Hin.
  apply in_split in Hin as (pre & post & He).
  destruct (c05_bad_first_ok _ _ _ _ _ _ _ _ _ _ _ Hi He) as (ps & bm & Hpl & _ & Hck & (s & Hs & Hd) & _).
  unfold planned in Hpl.
  destruct (c01_ok _ _ _ _ _ _ _ _ _ _ _ _ HU HW HD HB HBs HBp Hpl _ Hs) as (C1 & C2 & C3).
  exists s. enough (Z : In s (cf_slots cf) /\ sl_readonly s = false /\ ck_device (in_checks inp) (sl_name s) = true /\
    (ck_mounted (in_checks inp) (sl_name s) = true -> ck_allow_mounted (in_checks inp) (sl_name s) = true /\ exists i, In i (in_images inp) /\ im_class i = sl_class s /\ im_install i = true)).
  { destruct Z as (Z1 & Z2 & Z3 & Z4). auto 10. }
  unfold written in Hs. apply in_flat_map in Hs as (p & Hp & Hs). destruct (pl_target p) as [s' h|] eqn:Et; [|destruct Hs].
  destruct Hs as [->|[]].
  destruct (checks_mounted_ok _ _ Hck _ _ _ Hp Et) as [K1 K2].
  destruct (make_plans_ok _ _ _ _ _ _ Hpl) as (sp & ap & -> & F1 & F2).
  assert (PC : exists c, plan_class (cf_variant cf) (in_images inp)
     (determine_target_group (cf_per_slot cf) (in_states inp) (in_info inp) (cf_slots cf)) c = Ok p).
  { apply in_app_or in Hp as [Hp|Hp].
    - clear - F1 Hp. induction F1; [destruct Hp|]. destruct Hp as [->|Hp]; eauto.
    - exfalso. clear - F2 Hp Et. induction F2 as [|i q l l' Hq _ IH]; [destruct Hp|]. destruct Hp as [->|Hp]; auto.
      unfold plan_artifact in Hq. destruct (existsb _ _); [|discriminate]. apply Ok_inj in Hq. subst p. discriminate. }
  destruct PC as (cl & PC). apply plan_class_ok in PC as (i & s2 & h2 & -> & Ei & Etg & Hro & _).
  cbn in Et. injection Et as -> ->. split; [apply (target_group_spec _ _ _ _ _ _ HU HW Etg)|]. split; [exact Hro|]. split; [exact K1|].
  intros Hm. destruct (K2 Hm) as [K3 K4]. split; [exact K3|]. exists i.
  destruct (image_for_in _ _ _ _ Ei) as [I1 I2]. split; [exact I1|]. split; [|exact K4].
  rewrite I2. destruct (target_group_spec _ _ _ _ _ _ HU HW Etg) as (_ & T & _). congruence.
Qed.
