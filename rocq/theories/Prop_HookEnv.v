(** C59: what slot hooks and file system tools are told. *)
From Verif Require Import Base Slot Image Handlers KeyFile SlotWrite SlotWriteSpec SlotWriteProofs SlotWriteTop SlotWriteThms SlotWriteBal SlotWriteConf SlotWriteEnv SlotWriteRecipe SlotWriteMore SlotWriteMore2 SlotWriteMore3 SlotWriteMore4 SlotWriteExamples.

Theorem C59_environment : forall h o c hook i s mp r w' t1 hk cmd env b t2,
  h <> H_boot_emmc -> mp (sl_name s) = None ->
  (forall p, sl_parent s = Some p -> exists ps, In ps (wx_slots c) /\ sl_name ps = p) ->
  slot_handler h o c hook i s (mkWst [] mp) = (r, w') -> ws_tr w' = t1 ++ (AHook hk cmd env, b) :: t2 ->
  let x := wx_ext c (sl_name s) in
  (* the slot *)
  assoc "RAUC_SLOT_NAME" env = Some (sl_name s) /\ assoc "RAUC_SLOT_CLASS" env = Some (sl_class s) /\
  assoc "RAUC_SLOT_TYPE" env = Some (sl_type s) /\ assoc "RAUC_SLOT_DEVICE" env = Some (sl_device s) /\
  assoc "RAUC_SLOT_STATE" env = Some (sx_state x) /\ assoc "RAUC_SLOT_PARENT" env = Some (parent_name s) /\
  (exists n, boot_name c s n /\ assoc "RAUC_SLOT_BOOTNAME" env = Some (getopt n)) /\
  (* the image *)
  assoc "RAUC_IMAGE_NAME" env = Some (getopt (im_filename i)) /\ (exists t, assoc "RAUC_IMAGE_SIZE" env = Some t /\ is_decimal t (im_size i)) /\
  assoc "RAUC_IMAGE_DIGEST" env = Some (getopt (im_digest i)) /\ assoc "RAUC_IMAGE_CLASS" env = Some (im_class i) /\
  (* the system and the bundle *)
  assoc "RAUC_SYSTEM_COMPATIBLE" env = Some (getopt (wx_compatible c)) /\ assoc "RAUC_SYSTEM_VARIANT" env = Some (getopt (wx_variant c)) /\
  assoc "RAUC_SYSTEM_VERSION" env = Some (getopt (wx_version c)) /\ assoc "RAUC_MOUNT_PREFIX" env = Some (wx_prefix c) /\
  assoc "RAUC_BUNDLE_MOUNT_POINT" env = option_map snd (wx_bundle c) /\
  assoc "RAUC_BUNDLE_SPKI_HASHES" env = option_map (fun hb => join " " (fst hb)) (wx_bundle c) /\
  (* where the slot is mounted while the hook runs *)
  ((exists m, mounts t1 = [(if String.eqb (sl_type s) "jffs2" then basename (sl_device s) else sl_device s, m)] /\
              assoc "RAUC_SLOT_MOUNT_POINT" env = Some m) \/
   (mounts t1 = [] /\ assoc "RAUC_SLOT_MOUNT_POINT" env = sx_ext_mp x)).
Proof. exact c59_env_ok. Qed.
Print Assumptions C59_environment.
Theorem C59_mounted : forall h o c hook i s mp r w' t1 hk cmd env b t2,
  mp (sl_name s) = None -> slot_handler h o c hook i s (mkWst [] mp) = (r, w') -> ws_tr w' = t1 ++ (AHook hk cmd env, b) :: t2 ->
  (mounts t1 <> [] <->
   cmd = "slot-pre-install" /\ In h [H_img_to_fs; H_img_to_ubifs; H_archive_to_ubifs; H_archive_to_jffs2] \/
   cmd = "slot-post-install" /\ In h [H_img_to_fs; H_img_to_ubifs; H_archive_to_ubifs; H_archive_to_jffs2; H_archive_to_ext4; H_archive_to_vfat]).
Proof. exact c59_mounted_ok. Qed.
Print Assumptions C59_mounted.
Theorem C59_partition : forall h o c hook i s mp r w' hk cmd env b,
  h = H_boot_mbr_switch \/ h = H_boot_gpt_switch -> mp (sl_name s) = None ->
  slot_handler h o c hook i s (mkWst [] mp) = (r, w') -> In (AHook hk cmd env, b) (ws_tr w') ->
  exists start size, wx_part c = Some (start, size) /\
    assoc "RAUC_BOOT_PARTITION_START" env = Some (print_num 10 start) /\ assoc "RAUC_BOOT_PARTITION_SIZE" env = Some (print_num 10 size) /\
    assoc "RAUC_BOOT_PARTITION_ACTIVATING" env = Some (if N.eqb start (sx_start (wx_ext c (sl_name s))) then "0" else "1") /\
    forall a b', In (a, b') (ws_tr w') -> modifying a = true ->
      In a [AClear (sl_device s) start (Some size); AWriteAt (getopt (im_filename i)) (sl_device s) start size 0; ASwitch (sl_device s) start size].
Proof. exact c59_partition_ok. Qed.
Print Assumptions C59_partition.
Theorem C59_region : forall o c hook i s mp r w' hk cmd env b,
  mp (sl_name s) = None -> slot_handler H_boot_raw_fallback o c hook i s (mkWst [] mp) = (r, w') -> In (AHook hk cmd env, b) (ws_tr w') ->
  assoc "RAUC_BOOT_REGION_START" env = Some (print_num 10 (sx_start (wx_ext c (sl_name s)))) /\
  assoc "RAUC_BOOT_REGION_SIZE" env = Some (print_num 10 (sx_size (wx_ext c (sl_name s)))).
Proof. exact c59_region_ok. Qed.
Print Assumptions C59_region.
Theorem C59_emmc : forall o c hook i s mp r w' hk cmd env b,
  mp (sl_name s) = None -> slot_handler H_boot_emmc o c hook i s (mkWst [] mp) = (r, w') -> In (AHook hk cmd env, b) (ws_tr w') ->
  exists n, (n = "0" \/ n = "1") /\
    (* the partition that is being made active *)
    assoc "RAUC_BOOT_PARTITION_ACTIVATING" env = Some n /\
    (forall d p b', In (ASwitchEmmc d p, b') (ws_tr w') -> print_num 10 (N.of_nat p) = n /\ d = (getopt (wx_realdev c) ++ "boot" ++ n)%string) /\
    (forall f d b', In (AWrite f d, b') (ws_tr w') -> d = (getopt (wx_realdev c) ++ "boot" ++ n)%string) /\
    assoc "RAUC_BOOT_SIZE_LIMIT" env = Some (print_num 10 (sx_limit (wx_ext c (sl_name s)))) /\
    assoc "RAUC_SLOT_DEVICE" env = wx_realdev c /\
    assoc "RAUC_SLOT_STATE" env = Some (sx_state (wx_ext c (sl_name s))) /\ assoc "RAUC_SLOT_NAME" env = Some (sl_name s) /\ assoc "RAUC_SLOT_CLASS" env = Some (sl_class s).
Proof. exact c59_emmc_ok. Qed.
Print Assumptions C59_emmc.
Theorem C59_vfat_label : forall name,
  (String.length (vfat_label name) <= 11)%nat /\
  (forall a, in_string a (vfat_label name) = true ->
     ~ (97 <= nat_of_ascii a <= 122)%nat /\ in_string a "*?.,;:/\|+=<>[]""" = false).
Proof. exact c59_vfat_label_ok. Qed.
Print Assumptions C59_vfat_label.
Theorem C59_vfat_label_chars : forall name n a, (n < 11)%nat -> get n name = Some a ->
  get n (vfat_label name) = Some (if in_string (upper a) "*?.,;:/\|+=<>[]""" then "_"%char else upper a).
Proof. exact c59_vfat_label_chars_ok. Qed.
Print Assumptions C59_vfat_label_chars.
Theorem C59_vfat_label_length : forall name, (String.length name <= 11)%nat ->
  String.length (vfat_label name) = String.length name.
Proof. exact c59_vfat_label_keeps_ok. Qed.
Print Assumptions C59_vfat_label_length.
Theorem C59_tar_flag : forall base suf flag, In (suf, flag) compressions -> tar_flag (base ++ suf)%string = flag.
Proof. exact c59_tar_flag_ok. Qed.
Print Assumptions C59_tar_flag.
Theorem C59_vfat_label_unique_refuted : exists a b, a <> b /\ vfat_label a = vfat_label b /\ vfat_label a = "BOOTLOADER_".
Proof. exact c59_vfat_label_unique_refuted. Qed.
Print Assumptions C59_vfat_label_unique_refuted.
Theorem C59_pre_hook_unmounted_refuted : exists o c i s w' env t1 t2 b,
  im_pre i = true /\ sl_type s = "ext4" /\ slot_handler H_archive_to_ext4 o c (Some "hook") i s (mkWst [] (fun _ => None)) = (true, w') /\
  ws_tr w' = t1 ++ (AHook "hook" "slot-pre-install" env, b) :: t2 /\ mounts t1 = [] /\ assoc "RAUC_SLOT_MOUNT_POINT" env = None.
Proof. exact c59_pre_unmounted_refuted. Qed.
Print Assumptions C59_pre_hook_unmounted_refuted.
Theorem C59_emmc_environment_refuted : exists o c i s ps w' t1 t2 env b,
  slot_handler H_boot_emmc o c (Some "hook") i s (mkWst [] (fun _ => None)) = (true, w') /\
  ws_tr w' = t1 ++ (AHook "hook" "slot-post-install" env, b) :: t2 /\
  In ps (wx_slots c) /\ sl_parent s = Some (sl_name ps) /\ sl_bootname ps = Some "B" /\
  assoc "RAUC_SLOT_BOOTNAME" env = Some "" /\ assoc "RAUC_SLOT_PARENT" env = Some "" /\
  sl_device s = "/dev/emmc" /\ assoc "RAUC_SLOT_DEVICE" env = Some "/dev/mmcblk1".
Proof. exact c59_emmc_env_refuted. Qed.
Print Assumptions C59_emmc_environment_refuted.

(** The hypotheses of C59_environment are met by the run of SlotWriteExamples.ex_sw_env: a child slot whose parent exists. *)
Example C59_parent_exists : forall p, sl_parent sw_app1 = Some p -> exists ps, In ps (wx_slots (sw_ctx false)) /\ sl_name ps = p.
Proof. intros p E. exists sw_rootfs1. split; [right; left; reflexivity|]. cbn in *. congruence. Qed.
Example C59_tar_flag_case : In (".tar.zst", Some "--zstd") compressions /\ tar_flag "rootfs.tar.zst" = Some "--zstd".
Proof. split; [cbn; auto 20|reflexivity]. Qed.
