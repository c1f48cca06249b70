From Verif Require Import Base Slot Image Handlers KeyFile SlotWrite SlotWriteSpec SlotWriteThms.

(** A system with a root file system pair, a second class mounted from its parent, and an eMMC boot slot. *)
Definition sw_rootfs0 := mkSlot "rootfs.0" "rootfs" "/dev/mmcblk0p2" "ext4" (Some "A") None false false.
Definition sw_rootfs1 := mkSlot "rootfs.1" "rootfs" "/dev/mmcblk0p3" "ext4" (Some "B") None false false.
Definition sw_app1 := mkSlot "appfs.1" "appfs" "/dev/mtd3" "jffs2" None (Some "rootfs.1") false false.
Definition sw_boot := mkSlot "bootloader.0" "bootloader" "/dev/emmc" "boot-emmc" None (Some "rootfs.1") false false.
Definition sw_sext (st : string) := mkSext [] None false None st 0 0 0.
Definition sw_ctx (desync : bool) : wctx := mkWctx [sw_rootfs0; sw_rootfs1; sw_app1; sw_boot]
  (fun n => if String.eqb n "rootfs.0" then sw_sext "booted" else mkSext ["-m0"] (Some "noatime") true None "inactive" 0 0 0)
  "/run/rauc" desync (Some []) "/run/rauc/store" (Some "board") None (Some "1.0") (Some (["AA:BB"], "/run/rauc/bundle"))
  (Some (1048576, 1048576)%N) (Some true) (Some "/dev/mmcblk1") (Some (Some 0%nat)) (Some (Some 1%nat)).
Definition sw_image (class file : string) (pre post : bool) : image :=
  mkImage class None None (Some "abcd") 1024 (Some file) None false pre false post [] [] [].
Definition sw_fine : oracle := fun _ _ => true.
Definition sw_none : string -> option string := fun _ => None.
Definition sw_start := mkWst [] sw_none.
Definition sw_hook := Some "/run/rauc/bundle/hook.sh".

(** the actions, hooks without their environment *)
Definition brief (a : act) : act := match a with AHook p cmd _ => AHook p cmd [] | _ => a end.
Definition briefly (w : wst) : list (act * bool) := map (fun e => (brief (fst e), snd e)) (ws_tr w).

Example ex_sw_tar : let r := slot_handler H_archive_to_ext4 sw_fine (sw_ctx false) sw_hook (sw_image "rootfs" "root.tar.xz" true true) sw_rootfs1 sw_start in
  fst r = true /\ briefly (snd r) = [
    (AHook "/run/rauc/bundle/hook.sh" "slot-pre-install" [], true);
    (ARun ["mkfs.ext4"; "-F"; "-L"; "rootfs.1"; "-I256"; "-m0"; "/dev/mmcblk0p3"] None None, true);
    (AExists "/dev/mmcblk0p3", true); (AMkdir "/run/rauc/rootfs.1", true);
    (ARun ["mount"; "-t"; "ext4"; "-o"; "noatime"; "/dev/mmcblk0p3"; "/run/rauc/rootfs.1"] None None, true);
    (ARun ["tar"; "xf"; "-"; "-C"; "/run/rauc/rootfs.1"; "--numeric-owner"; "-J"] (Some "root.tar.xz") None, true);
    (AHook "/run/rauc/bundle/hook.sh" "slot-post-install" [], true);
    (ARun ["umount"; "/run/rauc/rootfs.1"] None None, true); (ARmdir "/run/rauc/rootfs.1", true)].
Proof. vm_compute. split; reflexivity. Qed.

(** a directory tree from casync, the booted slot serving as seed; the seed is unmounted although extraction fails *)
Definition sw_no_casync : oracle := fun _ a => match a with ARun ("casync" :: _) _ _ => false | _ => true end.
Example ex_sw_casync : let r := slot_handler H_archive_to_ext4 sw_no_casync (sw_ctx false) None (sw_image "rootfs" "root.caidx" false false) sw_rootfs1 sw_start in
  fst r = false /\ mounts (ws_tr (snd r)) = [] /\ briefly (snd r) = [
    (ARun ["mkfs.ext4"; "-F"; "-L"; "rootfs.1"; "-I256"; "-m0"; "/dev/mmcblk0p3"] None None, true);
    (AExists "/dev/mmcblk0p3", true); (AMkdir "/run/rauc/rootfs.1", true);
    (ARun ["mount"; "-t"; "ext4"; "-o"; "noatime"; "/dev/mmcblk0p3"; "/run/rauc/rootfs.1"] None None, true);
    (AExists "/dev/mmcblk0p2", true); (AMkdir "/run/rauc/rootfs.0", true);
    (ARun ["mount"; "-t"; "ext4"; "/dev/mmcblk0p2"; "/run/rauc/rootfs.0"] None None, true);
    (ARun ["casync"; "extract"; "--seed"; "/run/rauc/rootfs.0"; "--store"; "/run/rauc/store"; "--seed-output=no"; "root.caidx"; "/run/rauc/rootfs.1"] None None, false);
    (ARun ["umount"; "/run/rauc/rootfs.0"] None None, true); (ARmdir "/run/rauc/rootfs.0", true);
    (ARun ["umount"; "/run/rauc/rootfs.1"] None None, true); (ARmdir "/run/rauc/rootfs.1", true)].
Proof. vm_compute. repeat split; reflexivity. Qed.

(** the eMMC boot partition that is not in use is written and activated *)
Example ex_sw_emmc : let r := slot_handler H_boot_emmc sw_fine (sw_ctx false) sw_hook (sw_image "bootloader" "boot.img" false true) sw_boot sw_start in
  fst r = true /\ briefly (snd r) = [
    (AForceRo "/dev/mmcblk1boot1" false, true); (AClear "/dev/mmcblk1boot1" 0 None, true); (AWrite "boot.img" "/dev/mmcblk1boot1", true);
    (AHook "/run/rauc/bundle/hook.sh" "slot-post-install" [], true); (AForceRo "/dev/mmcblk1boot1" true, true);
    (ASwitchEmmc "/dev/mmcblk1boot1" 1, true)].
Proof. vm_compute. split; reflexivity. Qed.

(** a failing unmount is reported and leaves the slot mounted *)
Definition sw_no_umount : oracle := fun _ a => match a with ARun ("umount" :: _) _ _ => false | _ => true end.
Example ex_sw_stuck : let r := slot_handler H_archive_to_jffs2 sw_no_umount (sw_ctx false) None (sw_image "appfs" "app.tar" false false) sw_app1 sw_start in
  fst r = false /\ mounts (ws_tr (snd r)) = [("mtd3", "/run/rauc/appfs.1")].
Proof. vm_compute. split; reflexivity. Qed.

Definition env_of (cmd : string) (w : wst) : option (list (string * string)) :=
  match find (fun e => is_hook cmd (fst e)) (ws_tr w) with Some (AHook _ _ env, _) => Some env | _ => None end.
Definition hook_var (cmd k : string) (w : wst) : option string := match env_of cmd w with Some env => assoc k env | None => None end.

Example ex_sw_env : let r := slot_handler H_archive_to_jffs2 sw_fine (sw_ctx false) sw_hook (sw_image "appfs" "app.tar" true false) sw_app1 sw_start in
  let v k := hook_var "slot-pre-install" k (snd r) in
  v "RAUC_SLOT_BOOTNAME" = Some "B" /\ v "RAUC_SLOT_PARENT" = Some "rootfs.1" /\ v "RAUC_SLOT_MOUNT_POINT" = Some "/run/rauc/appfs.1" /\
  v "RAUC_IMAGE_SIZE" = Some "1024" /\ v "RAUC_BUNDLE_SPKI_HASHES" = Some "AA:BB".
Proof. vm_compute. repeat split; reflexivity. Qed.

(** docs/reference.rst: "For mountable slots, RAUC will attempt to automatically mount the slot if a pre-install
    or post-install hook is given": not for the pre-install hook of an archive for an ext4 slot *)
Lemma c59_pre_unmounted_refuted : exists o c i s w' env t1 t2 b,
  im_pre i = true /\ sl_type s = "ext4" /\ slot_handler H_archive_to_ext4 o c (Some "hook") i s (mkWst [] (fun _ => None)) = (true, w') /\
  ws_tr w' = t1 ++ (AHook "hook" "slot-pre-install" env, b) :: t2 /\ mounts t1 = [] /\ assoc "RAUC_SLOT_MOUNT_POINT" env = None.
Proof.
  exists sw_fine, (sw_ctx false), (sw_image "rootfs" "root.tar" true false), sw_rootfs1. eexists. eexists. exists []. eexists. eexists.
  split; [reflexivity|]. split; [reflexivity|]. split; [vm_compute; reflexivity|]. split; [reflexivity|]. split; reflexivity.
Qed.

(** docs/reference.rst: RAUC_SLOT_DEVICE "equals the device= parameter", RAUC_SLOT_BOOTNAME is "the parent's
    bootname" and RAUC_SLOT_PARENT "the parent of the currently installed slot": not for eMMC boot slots *)
Lemma c59_emmc_env_refuted : exists o c i s ps w' t1 t2 env b,
  slot_handler H_boot_emmc o c (Some "hook") i s (mkWst [] (fun _ => None)) = (true, w') /\
  ws_tr w' = t1 ++ (AHook "hook" "slot-post-install" env, b) :: t2 /\
  In ps (wx_slots c) /\ sl_parent s = Some (sl_name ps) /\ sl_bootname ps = Some "B" /\
  assoc "RAUC_SLOT_BOOTNAME" env = Some "" /\ assoc "RAUC_SLOT_PARENT" env = Some "" /\
  sl_device s = "/dev/emmc" /\ assoc "RAUC_SLOT_DEVICE" env = Some "/dev/mmcblk1".
Proof.
  exists sw_fine, (sw_ctx false), (sw_image "bootloader" "boot.img" false true), sw_boot, sw_rootfs1. eexists.
  exists [(AForceRo "/dev/mmcblk1boot1" false, true); (AClear "/dev/mmcblk1boot1" 0 None, true); (AWrite "boot.img" "/dev/mmcblk1boot1", true)].
  eexists. eexists. eexists.
  split; [vm_compute; reflexivity|]. split; [reflexivity|]. split; [right; left; reflexivity|]. repeat split; reflexivity.
Qed.
