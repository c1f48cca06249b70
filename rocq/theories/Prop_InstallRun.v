(** Property theorems about running an installation (C04, C05, C06, C46).
    Vocabulary: InstallRunSpec.v; boot loaders: BootInst.v. *)
From Verif Require Import Base BaseLemmas Slot Image Handlers Install InstallSpec InstallProofs Efi EfiSpec
  Uboot UbootSpec Grub GrubSpec Barebox BareboxSpec
  InstallRun InstallRunSpec InstallRunProofs BootSafeProofs GrubProofs BootInst BootInstProofs InstallRunExamples EfiInst C01Proofs.

(** C01: what an installation writes, at any point *)
Theorem C01_writes : forall B (bk : backend B) cf inp (w : world B) r es realdev bootslot booted d c,
  unique_names (cf_slots cf) -> wf_parents (cf_slots cf) ->
  determine_slot_states realdev (Some bootslot) (cf_slots cf) = Ok (in_states inp) ->
  In booted (cf_slots cf) -> in_states inp (sl_name booted) = ST_BOOTED -> sl_parent booted = None ->
  install bk cf inp w = (r, es) -> In (EWrite d c) es ->
  exists s, In s (cf_slots cf) /\ sl_device s = d /\
    sl_name s <> sl_name booted /\ sl_parent s <> Some (sl_name booted) /\
    in_states inp (sl_name s) = ST_INACTIVE /\ sl_readonly s = false /\
    ck_device (in_checks inp) (sl_name s) = true /\
    (ck_mounted (in_checks inp) (sl_name s) = true ->
       ck_allow_mounted (in_checks inp) (sl_name s) = true /\
       exists i, In i (in_images inp) /\ im_class i = sl_class s /\ im_install i = true).
Proof. exact c01_writes_ok. Qed.
Print Assumptions C01_writes.

(** C04: with a central status file, a recorded "ok" is true at every point of every
    history of installations, failures, crashes and restarts *)
Theorem C04_status_true : forall B (bk : backend B) cf w0 w,
  unique_names (cf_slots cf) -> distinct_devices (cf_slots cf) -> wf_parents (cf_slots cf) ->
  cf_per_slot cf = false ->
  status_true (cf_slots cf) w0 -> life bk cf w0 w -> status_true (cf_slots cf) w.
Proof. exact c04_ok. Qed.
Print Assumptions C04_status_true.

(** ... so that a slot left torn is written again by the next installation *)
Theorem C04_torn_rewritten : forall B (bk : backend B) cf w0 w s,
  unique_names (cf_slots cf) -> distinct_devices (cf_slots cf) -> wf_parents (cf_slots cf) ->
  cf_per_slot cf = false ->
  status_true (cf_slots cf) w0 -> life bk cf w0 w ->
  In s (cf_slots cf) -> w_dev w (sl_device s) = Torn ->
  forall i o, po_mounted o = false -> po_save_pending o = true -> po_handler o = HOk ->
    In (EWrite (sl_device s) (Whole (im_digest i))) (snd (handle_slot_plan false o w i s)).
Proof. exact c04_torn_ok. Qed.
Print Assumptions C04_torn_rewritten.

(** not so for status files inside the slots *)
Theorem C04_per_slot_refuted :
  exists (w0 : world env) cf inp n, cf_per_slot cf = true /\ unique_names (cf_slots cf) /\
    distinct_devices (cf_slots cf) /\ wf_parents (cf_slots cf) /\
    status_true (cf_slots cf) w0 /\
    ~ status_true (cf_slots cf) (restart (replay w0 (firstn n (snd (install exr_bk cf inp w0))))).
Proof. exact c04_per_slot_refuted. Qed.
Print Assumptions C04_per_slot_refuted.

(** C05: the slot becomes active only after all slots are completely written, and
    nothing is written after that *)
Theorem C05_activate_last : forall B (bk : backend B) cf inp w r es pre post b,
  unique_names (cf_slots cf) -> distinct_devices (cf_slots cf) -> wf_parents (cf_slots cf) ->
  cf_per_slot cf = false -> status_true (cf_slots cf) w ->
  install bk cf inp w = (r, es) -> es = pre ++ EAct b :: post ->
  cf_activate cf = true /\
  exists ps, planned cf inp = Ok ps /\
    (forall p s h, In p ps -> pl_target p = TSlot s h ->
       w_dev (replay w pre) (sl_device s) = Whole (im_digest (pl_image p))) /\
    (forall d c, ~ In (EWrite d c) post).
Proof. exact c05_activate_ok. Qed.
Print Assumptions C05_activate_last.

(** C05: before the first write the boot slot has been marked bad, and all checks passed *)
Theorem C05_bad_first : forall B (bk : backend B) cf inp w r es pre post d c,
  install bk cf inp w = (r, es) -> es = pre ++ EWrite d c :: post ->
  exists ps bm, planned cf inp = Ok ps /\ boot_mark_slot ps None = Ok bm /\
    pre_install_checks (in_checks inp) ps = Ok tt /\
    (exists s, In s (written ps) /\ sl_device s = d) /\
    match bm with
    | Some s => w_boot (replay w pre) = last (bk_bad bk (w_boot w) s) (w_boot w) /\
                (exists rest, pre = map EBad (bk_bad bk (w_boot w) s) ++ rest)
    | None => w_boot (replay w pre) = w_boot w
    end.
Proof. exact c05_bad_first_ok. Qed.
Print Assumptions C05_bad_first.

(** C05: the result of a successful installation *)
Theorem C05_success : forall B (bk : backend B) cf inp w es,
  unique_names (cf_slots cf) -> distinct_devices (cf_slots cf) -> wf_parents (cf_slots cf) ->
  cf_per_slot cf = false -> status_true (cf_slots cf) w ->
  install bk cf inp w = (Ok tt, es) ->
  exists ps bm, planned cf inp = Ok ps /\ boot_mark_slot ps None = Ok bm /\
    (forall p s h, In p ps -> pl_target p = TSlot s h ->
       w_dev (replay w es) (sl_device s) = Whole (im_digest (pl_image p))) /\
    (forall s, In s (cf_slots cf) -> ~ In s (written ps) -> w_dev (replay w es) (sl_device s) = w_dev w (sl_device s)) /\
    match bm with
    | None => w_boot (replay w es) = w_boot w
    | Some s => let b1 := last (bk_bad bk (w_boot w) s) (w_boot w) in
                w_boot (replay w es) = if cf_activate cf then last (bk_act bk b1 s) b1 else b1
    end.
Proof. exact c05_success_ok. Qed.
Print Assumptions C05_success.

(** C06: skipping *)
Theorem C06_skip : forall B per_slot o (w : world B) i s,
  fst (handle_slot_plan per_slot o w i s) = true ->
  (forall c, ~ In (EWrite (sl_device s) c) (snd (handle_slot_plan per_slot o w i s))) ->
  sl_install_same s = false /\
  st_status (w_mem w (sl_name s)) = Some "ok" /\ st_digest (w_mem w (sl_name s)) = im_digest i.
Proof. exact c06_skip_ok. Qed.
Print Assumptions C06_skip.
Theorem C06_content : forall B per_slot o (w : world B) slots i s,
  In s slots -> status_true slots w ->
  fst (handle_slot_plan per_slot o w i s) = true ->
  w_dev (replay w (snd (handle_slot_plan per_slot o w i s))) (sl_device s) = Whole (im_digest i).
Proof. exact c06_content_ok. Qed.
Print Assumptions C06_content.
Theorem C06_no_digest_refuted :
  exists s i1 i2, sl_install_same s = false /\ im_digest i1 = None /\ im_digest i2 = None /\
    im_install i2 = true /\ i1 <> i2 /\
    forall B (w : world B) o,
      let w1 := replay w (snd (handle_slot_plan false exr_all w i1 s)) in
      po_mounted o = false -> po_save_done o = true ->
      fst (handle_slot_plan false exr_all w i1 s) = true /\
      fst (handle_slot_plan false o w1 i2 s) = true /\
      forall c, ~ In (EWrite (sl_device s) c) (snd (handle_slot_plan false o w1 i2 s)).
Proof. exact c06_no_digest_refuted. Qed.
Print Assumptions C06_no_digest_refuted.

(** C46: whenever power fails, the boot loader boots something, and only complete groups *)
Theorem C46_boot_safe : forall B cf (good : B -> Prop) cand bt bk w0 w,
  boot_laws (cf_slots cf) good cand bt bk ->
  unique_names (cf_slots cf) -> distinct_devices (cf_slots cf) -> wf_parents (cf_slots cf) ->
  unique_bootnames (cf_slots cf) -> cf_per_slot cf = false ->
  status_true (cf_slots cf) w0 -> boot_safe (cf_slots cf) good cand bt w0 ->
  proper_life cand bk cf w0 w ->
  (exists n, bt (w_boot w) n) /\ forall n, bt (w_boot w) n -> intact (cf_slots cf) w n.
Proof. exact c46_ok. Qed.
Print Assumptions C46_boot_safe.
Theorem C46_uboot : forall del slots cfg_default cfg_primary,
  (forall s b, In s slots -> sl_bootname s = Some b -> clean_word b = true) ->
  (cfg_primary < 2 ^ 31)%Z ->
  boot_laws slots uboot_good uboot_cand boots (uboot_backend del slots cfg_default cfg_primary).
Proof. exact uboot_laws_ok. Qed.
Print Assumptions C46_uboot.
Theorem C46_grub : forall slots, unique_names slots -> unique_bootnames slots -> boot_names_ok slots ->
  boot_laws slots (grub_good slots) grub_cand gboots (grub_backend slots).
Proof. exact grub_laws_ok. Qed.
Print Assumptions C46_grub.
Theorem C46_barebox : forall slots cfg_default cfg_primary, unique_names slots -> unique_bootnames slots ->
  (cfg_primary < 2 ^ 31)%Z ->
  boot_laws slots (barebox_good slots) (barebox_cand slots) (barebox_bt slots) (barebox_backend slots cfg_default cfg_primary).
Proof. exact barebox_laws_ok. Qed.
Print Assumptions C46_barebox.
Theorem C46_efi_bootorder : forall slots, boot_laws slots (efi_good slots) efi_cand efi_boots (efi_backend false).
Proof. exact efi_laws_ok. Qed.
Print Assumptions C46_efi_bootorder.
(** with BootNext (the default): a second installation before the reboot is not safe *)
Theorem C46_efi_bootnext_refuted :
  exists w0 w, boot_safe ex_tree (efi_good ex_tree) efi_cand efi_boots w0 /\
    status_true ex_tree w0 /\ proper_life efi_cand (efi_backend true) exr_cf w0 w /\
    efi_boots (w_boot w) "B" /\ ~ intact ex_tree w "B".
Proof. exact c46_efi_bootnext_refuted. Qed.
Print Assumptions C46_efi_bootnext_refuted.

(** the two conditions on the bundle in [proper] are needed *)
Theorem C46_child_only_refuted :
  exists inp n, planned exr_cf inp <> Err /\
    boot_safe ex_tree uboot_good uboot_cand boots exr_w0 /\
    let w := restart (replay exr_w0 (firstn n (snd (install exr_bk exr_cf inp exr_w0)))) in
    uboot_cand (w_boot w) "B" /\ ~ intact ex_tree w "B".
Proof. exact c46_child_only_refuted. Qed.
Print Assumptions C46_child_only_refuted.
Theorem C46_root_only_refuted :
  exists inp, let r := install exr_bk exr_cf inp exr_w1 in
    fst r = Ok tt /\ boots (w_boot (replay exr_w1 (snd r))) "B" /\ ~ intact ex_tree (replay exr_w1 (snd r)) "B".
Proof. exact c46_root_only_refuted. Qed.
Print Assumptions C46_root_only_refuted.

(** ** Non-vacuity: a life with a crash in the middle of a write, a restart and a complete
    installation, that meets all hypotheses of C46_boot_safe *)
Example ex_run_hyps :
  boot_laws ex_tree uboot_good uboot_cand boots exr_bk /\
  unique_names ex_tree /\ distinct_devices ex_tree /\ wf_parents ex_tree /\ unique_bootnames ex_tree /\
  cf_per_slot exr_cf = false /\ status_true ex_tree exr_w0 /\
  boot_safe ex_tree uboot_good uboot_cand boots exr_w0 /\
  proper_life uboot_cand exr_bk exr_cf exr_w0 exr_w2 /\
  w_dev exr_w1 "/dev/d" = Torn /\ boots (w_boot exr_w2) "B".
Proof.
  destruct exr_cfg as (H1 & H2 & H3 & H4). destruct exr_life as (L & L1 & _).
  split; [apply uboot_laws_ok; [|reflexivity]|].
  { intros s b Hs Hb. cbn in Hs. destruct Hs as [<-|[<-|[<-|[<-|[]]]]]; cbn in Hb; try discriminate;
      apply Some_inj in Hb; subst b; reflexivity. }
  repeat split; auto; try (apply exr_safe0).
  - intros s d _ [H|H]; discriminate H.
  - exists [], ["A"]. repeat split. constructor.
Qed.

Example ex_run_success : fst (install exr_bk exr_cf exr_both exr_w0) = Ok tt.
Proof. reflexivity. Qed.

(** the EFI instance is not vacuous *)
Example ex_efi_good : efi_good ex_tree exe_efi /\ boot_safe ex_tree (efi_good ex_tree) efi_cand efi_boots exe_w0.
Proof. split; [exact exe_good|exact exe_safe]. Qed.
