(** Which manifests can be written: the vocabulary of C32 - C34. *)
From Verif Require Import Base Image Handlers KeyFile EnvKey Manifest.

Definition nonempty_opt (o : option string) : Prop := o <> Some "".

(** A slot class has neither '.' nor '/', an artifact name no '.'. *)
Definition target_ok (cls : string) (art : option string) : Prop :=
  no_char "." cls = true /\ no_char "/" cls = true /\
  match art with Some a => no_char "." a = true | None => True end.

Record image_ok (i : image) : Prop := {
  io_target : target_ok (im_class i) (im_artifact i);
  io_digest : nonempty_opt (im_digest i);
  io_size : im_size i = (-1)%Z \/ (0 <= im_size i < 2 ^ 63)%Z;
  io_filename : nonempty_opt (im_filename i);
  (* the type: none for artifacts; otherwise given, or derived from the file name, or
     left to an install hook *)
  io_type : match im_artifact i with
            | Some _ => im_type i = None /\ im_type_from_ext i = false
            | None => match im_type i with
                      | None => im_type_from_ext i = false /\ im_install i = true
                      | Some t => t <> "" /\ (im_install i = true \/ is_image_type_supported t = true) /\
                                  (im_type_from_ext i = true -> im_install i = false /\
                                     exists f, im_filename i = Some f /\ derive_image_type f = Some t)
                      end
            end;
  io_lists : Forall (fun s => no_char ";" s = true) (im_adaptive i ++ im_convert i ++ im_converted i);
  io_some : im_filename i <> None \/ im_install i = true \/ (im_artifact i = None /\ im_type i <> None)
}.

Record meta_ok (g : string * list (string * string)) : Prop := {
  mo_label : no_char "." (fst g) = true /\ env_key (fst g) <> None;
  mo_keys : snd g <> [] /\ NoDup (map fst (snd g));
  mo_vals : Forall (fun kv => snd kv <> "" /\ env_key (fst kv) <> None) (snd g)
}.

Record manifest_ok (m : manifest) : Prop := {
  ok_compat : exists c, mf_compatible m = Some c /\ c <> "";
  ok_strings : nonempty_opt (mf_version m) /\ nonempty_opt (mf_description m) /\ nonempty_opt (mf_build m) /\
               nonempty_opt (mf_handler m) /\ nonempty_opt (mf_handler_args m) /\ nonempty_opt (mf_hook m) /\
               nonempty_opt (mf_verity_hash m) /\ nonempty_opt (mf_verity_salt m) /\ nonempty_opt (mf_crypt_key m);
  ok_handler : mf_handler_args m <> None -> mf_handler m <> None;
  ok_format : mf_format m <> F_PLAIN -> mf_format_explicit m = true;
  ok_verity : mf_format m = F_PLAIN ->
              mf_verity_hash m = None /\ mf_verity_salt m = None /\ mf_verity_size m = 0%N;
  ok_crypt : mf_format m <> F_CRYPT -> mf_crypt_key m = None;
  ok_vsize : (mf_verity_size m < 2 ^ 64)%N;
  ok_images : Forall image_ok (mf_images m);
  ok_distinct : NoDup (map (fun i => (im_class i, im_artifact i, im_variant i)) (mf_images m));
  ok_meta : Forall meta_ok (mf_meta m);
  ok_labels : NoDup (map fst (mf_meta m))
}.

(** GKeyFile: groups are unique (repeated headers are merged), keys are unique in a group *)
Definition keyfile_wf (kf : keyfile) : Prop :=
  NoDup (map fst kf) /\ forall g es, In (g, es) kf -> NoDup (map fst es).

(** what prepare_manifest does not write *)
Definition no_min_rauc (m : manifest) : manifest :=
  mkManifest (mf_compatible m) (mf_version m) (mf_description m) (mf_build m) None
    (mf_format m) (mf_format_explicit m) (mf_verity_hash m) (mf_verity_salt m) (mf_verity_size m)
    (mf_crypt_key m) (mf_handler m) (mf_handler_args m) (mf_hook m) (mf_install_check m) (mf_images m) (mf_meta m).
