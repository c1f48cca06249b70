(** Vocabulary of C43. *)
From Verif Require Import Base Slot Image Handlers KeyFile Hex Semver Manifest Bundle BundleSpec Install InstallRun Gates ManifestCheckProofs.

Record attempt (B : Type) := mkAttempt {
  at_crypto : crypto; at_sha : bytes -> string; at_backend : backend B; at_conf : gconf; at_args : iargs;
  at_out : gout; at_remote : bool; at_file : bytes; at_file_mount : bytes; at_excl : bool; at_access : bool;
  at_inp : inputs; at_world : world B
}.
Arguments at_crypto {B}. Arguments at_sha {B}. Arguments at_backend {B}. Arguments at_conf {B}. Arguments at_args {B}.
Arguments at_out {B}. Arguments at_remote {B}. Arguments at_file {B}. Arguments at_file_mount {B}. Arguments at_excl {B}.
Arguments at_access {B}. Arguments at_inp {B}. Arguments at_world {B}.

Definition attempt_run {B} (t : attempt B) : res unit * list (gevent B) :=
  do_install (at_crypto t) (at_sha t) (at_backend t) (at_conf t) (at_args t) (at_out t) (at_remote t) (at_file t)
    (at_file_mount t) (at_excl t) (at_access t) (at_inp t) (at_world t).

(** something other than mounting and asking: the system is being changed *)
Definition changes {B} (e : gevent B) : Prop :=
  match e with GCustom | GRun _ | GPost => True | GAccess _ | GPre | GHook => False end.

Definition at_origin {B} (t : attempt B) : origin :=
  mkOrigin (at_crypto t) (gc_bundle (at_conf t)) (mkBparams true false) (at_remote t) (at_file t) (at_excl t) (at_access t).

(** the manifest [m] comes from a correctly signed bundle: it is the signed manifest, or
    the one inside the signed payload (images differ only in a defaulted size) *)
Definition from_bundle {B} (t : attempt B) (m : manifest) : Prop :=
  exists size m0 l, m = with_images m0 l /\
   ((signed_manifest (at_origin t) size m0 /\ mf_format m0 <> F_PLAIN /\
     (forall h, ia_require_hash (at_args t) = Some h ->
        exists sig mb, bundle_sig (at_origin t) size sig false /\ cm_verify (at_crypto t) sig = Some mb /\
                       cm_load (at_crypto t) mb = Ok m0 /\ at_sha t mb = h) /\
     (mf_format m0 = F_CRYPT -> exists raw, og_open (at_origin t) = Ok (size, raw) /\
        cm_enveloped (at_crypto t) raw = true)) \/
    (signed_payload (at_origin t) size /\ mf_format m0 = F_PLAIN /\ ia_require_hash (at_args t) = None /\
     cm_inner (at_crypto t) (firstn size (at_file_mount t)) = Ok m0)).

(** the gates *)
Definition gates_open {B} (t : attempt B) (m : manifest) : Prop :=
  (forall v, mf_min_rauc m = Some v -> semver_less_equal v (bc_rauc (gc_bundle (at_conf t))) = Ok true) /\
  (if mf_install_check m then go_hook (at_out t) = true
   else ia_ignore_compatible (at_args t) = true \/ gc_compatible (at_conf t) = mf_compatible m) /\
  (gc_min_version (at_conf t) = None \/ ia_ignore_version (at_args t) = true \/
   exists min v, gc_min_version (at_conf t) = Some min /\ mf_version m = Some v /\ semver_less_equal min v = Ok true).
