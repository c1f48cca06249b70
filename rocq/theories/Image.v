(** Images of a manifest.  Models include/manifest.h:28-43 (struct RaucImage);
    NULL-able strings are options, NULL string arrays are []. *)
From Verif Require Import Base.

Record image := mkImage {
  im_class : string;             (* slotclass *)
  im_artifact : option string;
  im_variant : option string;
  im_digest : option string;     (* checksum.digest *)
  im_size : Z;                   (* checksum.size, goffset *)
  im_filename : option string;
  im_type : option string;
  im_type_from_ext : bool;       (* type_from_fileext *)
  im_pre : bool;                 (* hooks.pre_install *)
  im_install : bool;             (* hooks.install *)
  im_post : bool;                (* hooks.post_install *)
  im_adaptive : list string;
  im_convert : list string;
  im_converted : list string
}.
