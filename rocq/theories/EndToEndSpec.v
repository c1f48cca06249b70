(** Vocabulary of C76: installation attempts from the bundle file to the slots, and a
    system's life made of them.  The pieces are in Signature.v (what counts as a
    signature), Bundle.v (checking and mounting), Gates.v (do_install_bundle) and
    InstallRun.v (the default handler); this file only composes them. *)
From Verif Require Import Base Slot Image Handlers KeyFile Hex Semver Manifest Bundle BundleSpec Install InstallSpec InstallRun InstallRunSpec Gates GatesSpec Signature SignatureSpec.

(** How bundles are verified: OpenSSL, the keyring section of system.conf, reading a
    manifest (from the signature; from the payload), checking dm-verity. *)
Record verifier := mkVerifier {
  vf_ssl : openssl; vf_keys : keyconf; vf_load : bytes -> res manifest; vf_inner : bytes -> res manifest;
  vf_verity : bytes -> nat -> string -> string -> bool
}.
Definition vf_crypto (V : verifier) : crypto :=
  sig_crypto (vf_ssl V) (vf_keys V) (vf_load V) (vf_inner V) (vf_verity V).

(** The bundle of attempt [t] ends in the signature [c] behind [size] bytes of payload. *)
Definition ends_in {B} (V : verifier) (t : attempt B) (size : nat) (c : cms) : Prop :=
  exists raw sig,
    (if at_remote t then open_remote (bc_maxsig (gc_bundle (at_conf t))) (at_file t)
     else open_local (bc_maxsig (gc_bundle (at_conf t))) (at_file t)) = Ok (size, raw) /\
    (if is_enveloped (vf_ssl V) raw then decrypt (vf_ssl V) raw = Some sig else sig = raw) /\
    ssl_parse (vf_ssl V) sig = Some c.

(** A signer trusted by the keyring and allowed by system.conf has signed the bundle:
    all of its payload, or the manifest inside the signature. *)
Definition bundle_signed {B} (V : verifier) (P : pki) (t : attempt B) (size : nat) (c : cms) : Prop :=
  ends_in V t size c /\ exists x,
    ((cs_content c = None /\ at_remote t = false /\ signed_by (vf_ssl V) P (vf_keys V) c x (firstn size (at_file t))) \/
     exists mb, cs_content c = Some mb /\ signed_by (vf_ssl V) P (vf_keys V) c x mb).

(** ... and [m] is the manifest that signer has signed. *)
Definition vouched {B} (V : verifier) (P : pki) (t : attempt B) (m : manifest) : Prop :=
  exists size c, bundle_signed V P t size c /\
    match cs_content c with
    | None => vf_inner V (firstn size (at_file t)) = Ok m /\ mf_format m = F_PLAIN
    | Some mb => vf_load V mb = Ok m /\ mf_format m <> F_PLAIN
    end.

(** Contents are read through what the signer has signed: the signed payload itself, or a
    dm-verity device with the signed root hash. *)
Definition reads_signed (m : manifest) (e : access_ev) : Prop :=
  match e with
  | AMountRaw _ => mf_format m = F_PLAIN
  | AMountVerity _ root salt => mf_format m = F_VERITY /\ mf_verity_hash m = Some root /\ mf_verity_salt m = Some salt
  | AMountCrypt _ root salt key =>
      mf_format m = F_CRYPT /\ mf_verity_hash m = Some root /\ mf_verity_salt m = Some salt /\ mf_crypt_key m = Some key
  | AExtract _ => False
  end.

(** A file nobody else can write (enforce_bundle_exclusive) stays as it is. *)
Definition steady {B} (t : attempt B) : Prop := at_excl t = true -> at_file_mount t = at_file t.

(** The changes to slots, status and boot loader among the events of an attempt.  What
    custom handlers and hooks do themselves is not part of the model. *)
Definition state_changes {B} (l : list (gevent B)) : list (event B) :=
  flat_map (fun e => match e with GRun x => [x] | _ => [] end) l.

(** A life made of installation attempts [t] with [A t]: run to their end - successful or
    not -, or cut off after any number of events by a crash; and restarts. *)
Inductive history {B} (A : attempt B -> Prop) : world B -> world B -> Prop :=
| hist_start : forall w, history A w w
| hist_attempt : forall w t, history A w (at_world t) -> A t ->
    history A w (replay (at_world t) (state_changes (snd (attempt_run t))))
| hist_crash : forall w t n, history A w (at_world t) -> A t ->
    history A w (restart (replay (at_world t) (state_changes (firstn n (snd (attempt_run t))))))
| hist_restart : forall w w1, history A w w1 -> history A w (restart w1).

(** Attempts on one system. *)
Definition on_system {B} (V : verifier) (bk : backend B) (cf : sysconf) (t : attempt B) : Prop :=
  at_crypto t = vf_crypto V /\ at_backend t = bk /\ gc_sys (at_conf t) = cf /\ steady t.

(** [m]: the manifest as it is after checking and mounting the bundle of [t] *)
Definition delivers {B} (t : attempt B) (m : manifest) : Prop :=
  exists b b' e, og_check (at_origin t) = Ok b /\
    mount_bundle (at_crypto t) (gc_bundle (at_conf t)) (at_file_mount t) (go_mount (at_out t)) b = Ok (b', e) /\
    b_manifest b' = Some m.
Definition with_bundle (inp : inputs) (m : manifest) : inputs :=
  mkInputs (in_states inp) (in_info inp) (mf_images m) (in_checks inp) (in_artifacts_ok inp) (in_out inp).
