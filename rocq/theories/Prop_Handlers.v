(** Property theorems for update handler selection (C42). Vocabulary: HandlersSpec.v. *)
From Verif Require Import Base BaseLemmas Slot Image Handlers HandlersSpec HandlersProofs.
From Coq Require Import Permutation.

(** C42: a handler is used only for image and slot types it is meant for *)
Theorem C42_handler_fits : forall i dest h,
  get_update_handler i dest = Ok h ->
  (im_install i = true /\ h = H_hook_install) \/
  (im_install i = false /\ exists t, im_type i = Some t /\
     handler_fits t (sl_type dest) h /\
     (* an image with a known file system is never written to a slot of another one *)
     (forall f, fs_of_type t = Some f -> fs_slot (sl_type dest) = true -> f = sl_type dest)).
Proof. exact handler_ok. Qed.
Print Assumptions C42_handler_fits.

(** C42: the order of the table entries does not matter *)
Theorem C42_handler_order : forall m t st, Permutation image_type_map m ->
  lookup_handler m t st = get_handler_from_type t st.
Proof. exact handler_order_ok. Qed.
Print Assumptions C42_handler_order.

(** C42: unsupported combinations, and only these, are refused *)
Theorem C42_handler_refused : forall i dest, get_update_handler i dest = Err <->
  (im_install i = false /\ forall t, im_type i = Some t -> forall h, ~ In (t, sl_type dest, h) image_type_map).
Proof. exact handler_total_ok. Qed.
Print Assumptions C42_handler_refused.

(** C42: image type from file name extension *)
Theorem C42_type_from_filename : forall base ext t,
  In (ext, t) documented_ext ->
  In ext casync_ext \/ contains ".tar" ext \/ (~ contains ".tar" (base ++ ext) /\ ~ contains ".squashfs-" (base ++ ext)) ->
  derive_image_type (base ++ ext) = Some t.
Proof. exact derive_ok. Qed.
Print Assumptions C42_type_from_filename.

(** The condition on ".tar" is necessary: a file system image called
    "rootfs.target.ext4" is taken for a tar archive, and an ext4 slot accepts that. *)
Theorem C42_type_from_filename_refuted : exists base, derive_image_type (base ++ ".ext4") = Some "tar" /\
  get_handler_from_type "tar" "ext4" = Some H_archive_to_ext4.
Proof. exact derive_tar_refuted. Qed.
Print Assumptions C42_type_from_filename_refuted.

Example ex_handlers :
  get_update_handler (mkImage "rootfs" None None (Some "00") 1 (Some "x.ext4") (Some "ext4") true false false false [] [] [])
    (mkSlot "rootfs.1" "rootfs" "/dev/b" "raw" (Some "B") None false true) = Ok H_img_to_raw /\
  derive_image_type "core-image.squashfs-zst" = Some "squashfs" /\
  derive_image_type "core-image.rootfs.ext4.caibx" = Some "ext4-caibx" /\
  ~ contains ".tar" "core-image.ext4".
Proof. repeat split; try reflexivity. apply not_tar. reflexivity. Qed.
