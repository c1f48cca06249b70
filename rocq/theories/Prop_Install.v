(** Property theorems for target selection and planning (C01, C02, C03, C45).
    Vocabulary: InstallSpec.v. *)
From Verif Require Import Base BaseLemmas Slot Image Handlers Install InstallSpec InstallProofs.

(** C01: which slot is considered booted, and what is active because of it *)
Theorem C01_slot_states : forall realdev bootslot slots st,
  unique_names slots ->
  determine_slot_states realdev (Some bootslot) slots = Ok st ->
  (exists booted, In booted slots /\ st (sl_name booted) = ST_BOOTED /\
     (sl_bootname booted = Some bootslot \/ sl_name booted = bootslot \/ realdev (sl_device booted) = bootslot) /\
     (forall s, In s slots -> st (sl_name s) = ST_BOOTED -> s = booted) /\
     (forall s, In s slots -> st (sl_name s) = ST_ACTIVE <-> (s <> booted /\ sl_parent s = Some (sl_name booted)))) \/
  (bootslot = "_external_" /\ (forall s, In s slots -> st (sl_name s) = ST_INACTIVE) /\
   forall s, In s slots -> sl_bootname s <> Some bootslot /\ sl_name s <> bootslot /\ realdev (sl_device s) <> bootslot).
Proof. exact states_ok. Qed.
Print Assumptions C01_slot_states.

(** C01: no written slot is the booted slot, nor a child of it, and all are inactive *)
Theorem C01_install_targets : forall realdev bootslot slots st per_slot info sysvariant imgs repos aok ps booted,
  unique_names slots -> wf_parents slots ->
  determine_slot_states realdev (Some bootslot) slots = Ok st ->
  In booted slots -> st (sl_name booted) = ST_BOOTED -> sl_parent booted = None ->
  make_plans sysvariant imgs (determine_target_group per_slot st info slots) repos aok = Ok ps ->
  forall s, In s (written ps) ->
    sl_name s <> sl_name booted /\ sl_parent s <> Some (sl_name booted) /\ st (sl_name s) = ST_INACTIVE.
Proof. exact c01_ok. Qed.
Print Assumptions C01_install_targets.

(** C01, second line of defence: a mounted slot is never written, except by a
    custom install hook for a slot configured allow-mounted *)
Theorem C01_mounted_slots : forall ck ps,
  pre_install_checks ck ps = Ok tt ->
  forall p s h, In p ps -> pl_target p = TSlot s h ->
    ck_device ck (sl_name s) = true /\
    (ck_mounted ck (sl_name s) = true -> ck_allow_mounted ck (sl_name s) = true /\ im_install (pl_image p) = true).
Proof. exact checks_mounted_ok. Qed.
Print Assumptions C01_mounted_slots.

(** C01 needs the booted slot to be a top-level slot ... *)
Theorem C01_booted_child_refuted :
  exists slots bootslot st ps booted,
    unique_names slots /\ wf_parents slots /\ unique_bootnames slots /\
    determine_slot_states (fun d => d) (Some bootslot) slots = Ok st /\
    In booted slots /\ st (sl_name booted) = ST_BOOTED /\
    make_plans None [ex_img "rootfs"; ex_img "appfs"] (determine_target_group false st ex_info slots) [] true = Ok ps /\
    In booted (written ps).
Proof. exact c01_child_refuted. Qed.
Print Assumptions C01_booted_child_refuted.

(** ... and says nothing about devices: the configuration may give two slots the same one *)
Theorem C01_shared_device_refuted :
  exists slots bootslot st ps booted s,
    unique_names slots /\ wf_parents slots /\ unique_bootnames slots /\
    determine_slot_states (fun d => d) (Some bootslot) slots = Ok st /\
    In booted slots /\ st (sl_name booted) = ST_BOOTED /\ sl_parent booted = None /\
    make_plans None [ex_img "rootfs"] (determine_target_group false st ex_info slots) [] true = Ok ps /\
    In s (written ps) /\ sl_device s = sl_device booted.
Proof. exact c01_device_refuted. Qed.
Print Assumptions C01_shared_device_refuted.

(** C02: the target group *)
Theorem C02_target_group : forall per_slot st info slots tg,
  unique_names slots -> wf_parents slots ->
  tg = determine_target_group per_slot st info slots ->
  (forall c s, tg c = Some s ->
     In s slots /\ sl_class s = c /\
     exists r, group_root slots s r /\ st (sl_name r) = ST_INACTIVE) /\
  (forall c1 s1 r1 c2 s2 r2, tg c1 = Some s1 -> tg c2 = Some s2 ->
     group_root slots s1 r1 -> group_root slots s2 r2 -> sl_class r1 = sl_class r2 -> r1 = r2) /\
  (forall c s r t, tg c = Some s -> group_root slots s r -> In t slots -> group_root slots t r ->
     tg (sl_class t) <> None).
Proof. exact c02_ok. Qed.
Print Assumptions C02_target_group.

(** C45: which inactive slot is chosen *)
Theorem C45_select_policy : forall st info cls slots s,
  select_inactive false st info cls slots = Some s ->
  In s slots /\ st (sl_name s) = ST_INACTIVE /\ sl_class s = cls /\
  ((ss_status (info (sl_name s)) = Some "failed" \/ ss_installed (info (sl_name s)) = None) \/
   (forall x, In x slots -> st (sl_name x) = ST_INACTIVE -> sl_class x = cls ->
      ss_status (info (sl_name x)) <> Some "failed" /\
      exists t t', ss_installed (info (sl_name s)) = Some t /\ ss_installed (info (sl_name x)) = Some t' /\ (t <= t')%Z)).
Proof. exact select_policy_ok. Qed.
Print Assumptions C45_select_policy.
Theorem C45_select_exists : forall per_slot st info cls slots,
  (exists x, In x slots /\ st (sl_name x) = ST_INACTIVE /\ sl_class x = cls) ->
  exists s, select_inactive per_slot st info cls slots = Some s.
Proof. exact select_exists_ok. Qed.
Print Assumptions C45_select_exists.

(** C03: image selection *)
Theorem C03_plans : forall v imgs tg repos aok ps,
  make_plans v imgs tg repos aok = Ok ps ->
  exists sp ap, ps = sp ++ ap /\
    (* one slot plan per class named by a non-artifact image *)
    NoDup (map (fun p => im_class (pl_image p)) sp) /\
    (forall c, In c (map (fun p => im_class (pl_image p)) sp) <->
       exists i, In i imgs /\ im_artifact i = None /\ im_class i = c) /\
    (* with the right image, target and handler *)
    (forall p, In p sp -> exists s h, pl_target p = TSlot s h /\
       image_for v imgs (im_class (pl_image p)) = Some (pl_image p) /\
       tg (im_class (pl_image p)) = Some s /\ sl_readonly s = false /\
       get_update_handler (pl_image p) s = Ok h) /\
    (* and one repo plan per artifact image *)
    map pl_image ap = filter is_artifact imgs /\
    (forall p, In p ap -> pl_target p = TRepo (im_class (pl_image p)) /\ In (im_class (pl_image p)) repos).
Proof. exact c03_ok. Qed.
Print Assumptions C03_plans.
Theorem C03_plans_no_artifact : forall v imgs tg repos aok ps,
  (forall c s, tg c = Some s -> ~ In c repos) ->
  make_plans v imgs tg repos aok = Ok ps ->
  forall p s h, In p ps -> pl_target p = TSlot s h -> im_artifact (pl_image p) = None.
Proof. exact c03_no_artifact_ok. Qed.
Print Assumptions C03_plans_no_artifact.
Theorem C03_refuse_missing_variant : forall v imgs tg repos aok i,
  In i imgs -> im_artifact i = None ->
  (forall j, In j imgs -> im_class j = im_class i -> exists x, im_variant j = Some x /\ v <> Some x) ->
  make_plans v imgs tg repos aok = Err.
Proof. exact c03_refuse_ok. Qed.
Print Assumptions C03_refuse_missing_variant.

(** The slot that is marked bad/active: the unique written top-level slot with a bootname *)
Theorem C05_boot_mark_slot : forall ps o, boot_mark_slot ps None = Ok o ->
  match o with
  | Some s => In s (written ps) /\ sl_parent s = None /\ sl_bootname s <> None /\
              forall t, In t (written ps) -> sl_parent t = None -> sl_bootname t <> None -> t = s
  | None => forall t, In t (written ps) -> sl_parent t = None -> sl_bootname t = None
  end.
Proof. exact boot_mark_final_ok. Qed.
Print Assumptions C05_boot_mark_slot.

(** ... and if there are two of them, the process aborts (g_error) *)
Theorem C05_two_boot_slots_refuted :
  exists slots st ps,
    unique_names slots /\ wf_parents slots /\ unique_bootnames slots /\
    make_plans None [ex_img "rootfs"; ex_img "rescue"] (determine_target_group false st ex_info slots) [] true = Ok ps /\
    boot_mark_slot ps None = Abort.
Proof. exact boot_mark_abort_refuted. Qed.
Print Assumptions C05_two_boot_slots_refuted.

(** ** Non-vacuity *)
Example ex_install_hyps :
  unique_names ex_tree /\ wf_parents ex_tree /\
  exists st ps, determine_slot_states (fun d => d) (Some "A") ex_tree = Ok st /\
    In exR0 ex_tree /\ st (sl_name exR0) = ST_BOOTED /\ sl_parent exR0 = None /\
    make_plans None [ex_img "rootfs"; ex_img "appfs"] (determine_target_group false st ex_info ex_tree) [] true = Ok ps /\
    written ps = [exR1; exP1] /\ boot_mark_slot ps None = Ok (Some exR1).
Proof.
  split; [repeat constructor; cbn; intuition discriminate|].
  split; [exact ex_tree_wf|].
  eexists. eexists. repeat split; try reflexivity. cbn. auto.
Qed.

Example ex_variants :
  let i v := mkImage "rootfs" None v (Some "00") 1 (Some "x.ext4") (Some "ext4") true false false false [] [] [] in
  image_for (Some "v2") [i None; i (Some "v1"); i (Some "v2")] "rootfs" = Some (i (Some "v2")) /\
  image_for (Some "v3") [i (Some "v1"); i None] "rootfs" = Some (i None) /\
  make_plans (Some "v3") [i (Some "v1")] (fun _ => Some exR1) [] true = Err.
Proof. repeat split; reflexivity. Qed.

Example ex_select :
  select_inactive false (fun _ => ST_INACTIVE)
    (fun n => if String.eqb n "rootfs.0" then mkSel (Some "ok") (Some 20%Z) else mkSel (Some "ok") (Some 10%Z))
    "rootfs" ex_tree = Some exR1.
Proof. reflexivity. Qed.
