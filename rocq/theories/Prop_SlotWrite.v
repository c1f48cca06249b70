(** C58: writing one slot. *)
From Verif Require Import Base Slot Image Handlers SlotWrite SlotWriteSpec SlotWriteProofs SlotWriteTop SlotWriteThms SlotWriteBal SlotWriteConf SlotWriteEnv SlotWriteRecipe SlotWriteMore SlotWriteMore2 SlotWriteMore3 SlotWriteMore4 SlotWriteExamples.

Theorem C58_failures : forall h o c hook i s mp r w',
  mp (sl_name s) = None -> slot_handler h o c hook i s (mkWst [] mp) = (r, w') ->
  (* success: whatever failed on the way does not matter *)
  (r = true -> forall a, In (a, false) (ws_tr w') -> harmless c i a) /\
  (* any other failure ends the update: it is reported, and only cleanup follows *)
  (forall t1 a t2, ws_tr w' = t1 ++ (a, false) :: t2 -> ~ harmless c i a ->
     r = false /\ forall e, In e t2 -> cleanup (fst e) = true).
Proof. exact c58_failures_ok. Qed.
Print Assumptions C58_failures.
Theorem C58_hook_counts : forall h o c hook i s mp r w',
  h <> H_hook_install -> mp (sl_name s) = None -> slot_handler h o c hook i s (mkWst [] mp) = (r, w') ->
  forall cmd flag, (cmd = "slot-pre-install" /\ flag = im_pre i \/ cmd = "slot-post-install" /\ flag = im_post i) ->
    count (is_hook cmd) (ws_tr w') <= 1 /\
    (~ enabled hook flag -> count (is_hook cmd) (ws_tr w') = 0) /\
    (r = true -> enabled hook flag -> count (is_hook cmd) (ws_tr w') = 1).
Proof. exact c58_hook_counts_ok. Qed.
Print Assumptions C58_hook_counts.
Theorem C58_pre_hook_first : forall h o c hk i s mp r w',
  h <> H_hook_install -> im_pre i = true -> mp (sl_name s) = None -> slot_handler h o c (Some hk) i s (mkWst [] mp) = (r, w') ->
  (* before anything is modified, the pre-install hook has succeeded *)
  forall t1 a b t2, ws_tr w' = t1 ++ (a, b) :: t2 -> modifying a = true ->
    exists env, In (AHook hk "slot-pre-install" env, true) t1.
Proof. exact c58_pre_ok. Qed.
Print Assumptions C58_pre_hook_first.
Theorem C58_order : forall h o c hook i s mp r w',
  h <> H_hook_install -> mp (sl_name s) = None -> slot_handler h o c hook i s (mkWst [] mp) = (r, w') ->
  let complete t := im_type i = Some "emptyfs" \/ exists a, In (a, true) t /\ stores (getopt (im_filename i)) a = true in
  (* success means the content is on the device *)
  (r = true -> complete (ws_tr w')) /\
  forall t1 a b t2, ws_tr w' = t1 ++ (a, b) :: t2 ->
    (* the post-install hook runs only when enabled and when the content is complete *)
    (forall hk env, a = AHook hk "slot-post-install" env -> im_post i = true /\ hook = Some hk /\ complete t1) /\
    (* after it, nothing but the activation changes a device *)
    (modifying a = true -> activates a = false -> forall hk env b', ~ In (AHook hk "slot-post-install" env, b') t1) /\
    (* the new boot area is activated only when its content is complete and the post-install hook has succeeded *)
    (activates a = true -> complete t1 /\ forall hk, hook = Some hk -> im_post i = true -> exists env, In (AHook hk "slot-post-install" env, true) t1).
Proof. exact c58_order_ok. Qed.
Print Assumptions C58_order.
Theorem C58_unmounted : forall h o c hook i s mp r w',
  mp (sl_name s) = None -> slot_handler h o c hook i s (mkWst [] mp) = (r, w') ->
  mounts (ws_tr w') = [] \/
  r = false /\ exists m, In (ARun ["umount"; m] None None, false) (ws_tr w').
Proof. exact c58_unmounted_ok. Qed.
Print Assumptions C58_unmounted.
Theorem C58_forgotten : forall h o c hook i s mp w',
  mp (sl_name s) = None -> slot_handler h o c hook i s (mkWst [] mp) = (true, w') -> ws_mp w' (sl_name s) = None.
Proof. exact c58_forgotten_ok. Qed.
Print Assumptions C58_forgotten.
Theorem C58_confined : forall h o c hook i s mp r w',
  mp (sl_name s) = None -> slot_handler h o c hook i s (mkWst [] mp) = (r, w') ->
  forall t1 a b t2 d, ws_tr w' = t1 ++ (a, b) :: t2 -> modifies t1 a = Some d ->
    match h with
    | H_boot_emmc => exists dev, wx_realdev c = Some dev /\
        ((d = (dev ++ "boot0")%string /\ wx_bp c <> Some (Some 0%nat)) \/ (d = (dev ++ "boot1")%string /\ wx_bp c <> Some (Some 1%nat)))
    | _ => d = sl_device s \/ sl_type s = "jffs2" /\ d = basename (sl_device s)
    end.
Proof. exact c58_confined_ok. Qed.
Print Assumptions C58_confined.
Theorem C58_mount_commands : forall h o c hook i s mp r w' t1 args inp out b t2,
  slot_handler h o c hook i s (mkWst [] mp) = (r, w') -> ws_tr w' = t1 ++ (ARun ("mount" :: args) inp out, b) :: t2 ->
  exists x, (x = s \/ seeds c i x) /\
    args = ["-t"; sl_type x] ++ match sx_mount (wx_ext c (sl_name x)) with Some o => ["-o"; o] | None => [] end ++
           [if String.eqb (sl_type x) "jffs2" then basename (sl_device x) else sl_device x; (wx_prefix c ++ "/" ++ sl_name x)%string] /\
    (* only after the device was found and the directory made *)
    In (AExists (sl_device x), true) t1 /\ In (AMkdir (wx_prefix c ++ "/" ++ sl_name x)%string, true) t1.
Proof. exact c58_mount_ok2. Qed.
Print Assumptions C58_mount_commands.
Theorem C58_changes : forall h o c hook i s mp w',
  mp (sl_name s) = None -> indexed h i = false -> slot_handler h o c hook i s (mkWst [] mp) = (true, w') ->
  map fst (filter (fun e => modifying (fst e)) (ws_tr w')) = changes h c i s.
Proof. exact c58_changes_ok2. Qed.
Print Assumptions C58_changes.
Theorem C58_changes_indexed : forall h o c hook i s mp w',
  mp (sl_name s) = None -> indexed h i = true -> slot_handler h o c hook i s (mkWst [] mp) = (true, w') ->
  exists argv out, hd "" argv = (if wx_desync c then "desync" else "casync") /\
    out = match h with H_img_to_ubivol | H_img_to_ubifs => Some (sl_device s) | _ => None end /\
    (* the same changes, with the content written by the tool *)
    map fst (filter (fun e => modifying (fst e)) (ws_tr w')) = map (fun a => if is_content a then ARun argv None out else a) (changes h c i s).
Proof. exact c58_changes_indexed_ok. Qed.
Print Assumptions C58_changes_indexed.
Theorem C58_casync : forall h o c hook i s mp r w' t1 prog args inp out b t2,
  slot_handler h o c hook i s (mkWst [] mp) = (r, w') -> ws_tr w' = t1 ++ (ARun (prog :: args) inp out, b) :: t2 ->
  prog = "casync" \/ prog = "desync" -> inp = None /\ casync_call c i mp t1 (prog :: args) out.
Proof. exact c58_casync_ok. Qed.
Print Assumptions C58_casync.
Theorem C58_preconditions : forall h o c hook i s mp r w',
  mp (sl_name s) = None -> slot_handler h o c hook i s (mkWst [] mp) = (r, w') ->
  (r = true -> accepts h c hook i s) /\
  ((forall t a, o t a = true) -> accepts h c hook i s -> r = true).
Proof. exact c58_preconditions_ok. Qed.
Print Assumptions C58_preconditions.
Theorem C58_too_large : forall h o c hook i s mp r w' start sz,
  slot_handler h o c hook i s (mkWst [] mp) = (r, w') -> (0 <= im_size i < 2 ^ 64)%Z ->
  (h = H_boot_mbr_switch \/ h = H_boot_gpt_switch) /\ wx_part c = Some (start, sz) /\ (Z.of_N sz < im_size i)%Z \/
  h = H_boot_raw_fallback /\ (Z.of_N (sx_size (wx_ext c (sl_name s))) < 2 * im_size i - 1)%Z ->
  r = false /\ ws_tr w' = [].
Proof. exact c58_too_large_ok. Qed.
Print Assumptions C58_too_large.
Theorem C58_write_protection : forall o c hook i s mp r w' t1 a b t2,
  slot_handler H_boot_emmc o c hook i s (mkWst [] mp) = (r, w') -> ws_tr w' = t1 ++ (a, b) :: t2 ->
  (* every content change happens with the protection lifted *)
  (forall d, modifies t1 a = Some d -> activates a = false -> In (AForceRo d false, true) t1) /\
  (* lifted protection is restored, whatever happens *)
  (forall d, a = AForceRo d false -> exists b', In (AForceRo d true, b') t2).
Proof. exact c58_write_protection_ok. Qed.
Print Assumptions C58_write_protection.
Theorem C58_tidy : forall h o c hook i s mp r w' t1 m t2,
  mp (sl_name s) = None -> slot_handler h o c hook i s (mkWst [] mp) = (r, w') -> ws_tr w' = t1 ++ (AMkdir m, true) :: t2 ->
  (exists b, In (ARmdir m, b) t2) \/ In (ARun ["umount"; m] None None, false) t2.
Proof. exact c58_tidy_ok. Qed.
Print Assumptions C58_tidy.
Theorem C58_closed : forall h o c hook i s mp w',
  h = H_img_to_ubivol \/ h = H_img_to_ubifs -> mp (sl_name s) = None -> slot_handler h o c hook i s (mkWst [] mp) = (true, w') ->
  In (AOpen (sl_device s), true) (ws_tr w') /\ In (AClose (sl_device s), true) (ws_tr w').
Proof. exact c58_closed_ok. Qed.
Print Assumptions C58_closed.
Theorem C58_install_hook : forall o c hook i s mp r w',
  mp (sl_name s) = None -> slot_handler H_hook_install o c hook i s (mkWst [] mp) = (r, w') ->
  match hook with
  | Some hk => exists env, ws_tr w' = [(AHook hk "slot-install" env, r)]
  | None => r = false /\ ws_tr w' = []
  end.
Proof. exact c58_hook_install_ok. Qed.
Print Assumptions C58_install_hook.

(** The hypotheses are met: complete runs are in SlotWriteExamples.v (ex_sw_tar, ex_sw_casync, ex_sw_emmc, ex_sw_stuck). *)
Example C58_tar_meets_hypotheses :
  slot_handler H_archive_to_ext4 sw_fine (sw_ctx false) sw_hook (sw_image "rootfs" "root.tar.xz" true true) sw_rootfs1 sw_start =
    (true, snd (slot_handler H_archive_to_ext4 sw_fine (sw_ctx false) sw_hook (sw_image "rootfs" "root.tar.xz" true true) sw_rootfs1 sw_start)) /\
  sw_none (sl_name sw_rootfs1) = None /\ enabled sw_hook (im_pre (sw_image "rootfs" "root.tar.xz" true true)).
Proof. split; [vm_compute; reflexivity|]. split; [reflexivity|split; [discriminate|reflexivity]]. Qed.

Example C58_indexed_case : indexed H_archive_to_ext4 (sw_image "rootfs" "root.caidx" false false) = true /\ indexed H_archive_to_ext4 (sw_image "rootfs" "root.tar.xz" true true) = false.
Proof. split; reflexivity. Qed.
Example C58_accepts_case : accepts H_boot_gpt_switch (sw_ctx false) sw_hook (sw_image "bootloader" "boot.img" false true) sw_boot.
Proof. split; [discriminate|]. eexists. eexists. split; [reflexivity|]. vm_compute. discriminate. Qed.
Example C58_accepts_emmc_case : accepts H_boot_emmc (sw_ctx false) sw_hook (sw_image "bootloader" "boot.img" false true) sw_boot.
Proof. split; [discriminate|]. split; [discriminate|]. eexists. eexists. split; [reflexivity|]. split; [reflexivity|]. discriminate. Qed.
