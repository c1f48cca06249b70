(** Vocabulary of C80: the settings in the text of system.conf, and what they demand of a
    bundle and its signer. *)
From Verif Require Import Base Slot Image Handlers KeyFile Hex Semver Manifest Bundle BundleSpec Install InstallSpec InstallRun InstallRunSpec
  Gates GatesSpec Signature SignatureSpec EndToEndSpec ConfigSpec.
From Verif Require Import Config Context ContextSpec SystemConf.

(** the value of a key: the last --override for it, else what the file says *)
Definition text (cl : cmdline) (kf : keyfile) (section key : string) : option string :=
  match last_override (cl_overrides cl) section key with
  | Some v => Some v
  | None => kf_get kf section key
  end.
Definition on (o : option string) : Prop := o = Some "true" \/ o = Some "1".
Definition off (o : option string) : Prop := o = Some "false" \/ o = Some "0".
Definition nonempty (o : option string) : option string := match o with Some "" => None | _ => o end.

(** the file the configuration is from; built-in defaults count as an empty one *)
Definition config_text (files : string -> cfile) (x : context) (kf : keyfile) : Prop :=
  match x_source x with
  | Some p => files p = CKeyFile kf
  | None => kf = []
  end.

(** the keyring: from the command line, else from the file *)
Definition keyring_file (cl : cmdline) (kf : keyfile) : option string :=
  match cl_keyring cl with Some k => Some k | None => nonempty (text cl kf "keyring" "path") end.
Definition keyring_dir (cl : cmdline) (kf : keyfile) : option string :=
  match cl_keydir cl with Some k => Some k | None => nonempty (text cl kf "keyring" "directory") end.

(** what [keyring] demands of a signer's certificate [c] with the issuers [rest]; [stime]: the
    signing time of the signature; [no_time]: --no-check-time *)
Definition text_trusts (P : pki) (cl : cmdline) (kf : keyfile) (no_time : bool) (stime : option Z) (c : cert) (rest : list cert) : Prop :=
  let key := text cl kf "keyring" in
  linked P (c :: rest) /\
  p_keyring P (keyring_file cl kf) (keyring_dir cl kf) (last (c :: rest) c) = true /\
  (~ on (key "allow-partial-chain") -> p_self P (last (c :: rest) c) = true) /\
  (on (key "use-bundle-signing-time") ->
     exists t, stime = Some t /\ (0 <= t)%Z /\ Forall (fun y => p_valid P y t = true) (c :: rest)) /\
  (~ on (key "use-bundle-signing-time") -> no_time = false -> Forall (fun y => p_valid P y (p_now P) = true) (c :: rest)) /\
  (on (key "check-crl") -> Forall (fun y => p_revoked P y = false) (c :: rest)) /\
  match key "check-purpose" with
  | None => p_purpose P "smimesign" c false = true /\ Forall (fun y => p_purpose P "smimesign" y true = true) rest
  | Some p =>
      (p = "codesign" \/ p = "codesign-rauc" -> code_signer c /\ Forall code_ca rest) /\
      (p <> "codesign" -> p <> "codesign-rauc" -> p_purpose P p c false = true /\ Forall (fun y => p_purpose P p y true = true) rest)
  end.
(** allowed-signer-cns *)
Definition text_allows_name (cl : cmdline) (kf : keyfile) (c : cert) : Prop :=
  forall v, text cl kf "keyring" "allowed-signer-cns" = Some v ->
    exists cn, ct_cn c = Some cn /\ In cn (value_list v) /\ has_nul cn = false.
(** bundle-formats; the numbers of the formats in C30 *)
Definition format_number (f : bformat) : N := match f with F_PLAIN => 0 | F_VERITY => 1 | F_CRYPT => 2 end.
Definition text_allows_format (cl : cmdline) (kf : keyfile) (f : bformat) : Prop :=
  forall v, nonempty (text cl kf "system" "bundle-formats") = Some v ->
    exists toks, Forall2 is_ftoken (words v) toks /\
      ((Forall is_fset toks /\ In (FSet (format_number f)) toks) \/
       (Forall (fun t => ~ is_fset t) toks /\ modified toks (format_number f) true = true)).

(** [cm] is the signature of exactly one signer whom the text trusts, over [data] *)
Definition text_signed (L : openssl) (P : pki) (cl : cmdline) (kf : keyfile) (no_time : bool) (cm : cms) (data : bytes) : Prop :=
  cs_type cm = TSigned /\
  exists s c rest, cs_signers cm = [s] /\ si_cert s = Some c /\ ssl_sig L s data = true /\
    text_trusts P cl kf no_time (signing_time s) c rest /\ text_allows_name cl kf c.

(** such a signer has signed the manifest [m] of the bundle of attempt [t] *)
Definition text_vouched {B} (V : verifier) (P : pki) (cl : cmdline) (kf : keyfile) (no_time : bool) (t : attempt B) (m : manifest) : Prop :=
  exists size cm, ends_in V t size cm /\
    match cs_content cm with
    | None => at_remote t = false /\ text_signed (vf_ssl V) P cl kf no_time cm (firstn size (at_file t)) /\
              vf_inner V (firstn size (at_file t)) = Ok m /\ mf_format m = F_PLAIN
    | Some mb => text_signed (vf_ssl V) P cl kf no_time cm mb /\ vf_load V mb = Ok m /\ mf_format m <> F_PLAIN
    end.

(** the bundle is meant for this system, as far as the text and the installation options say *)
Definition text_fits {B} (cl : cmdline) (kf : keyfile) (t : attempt B) (m : manifest) : Prop :=
  (if mf_install_check m then go_hook (at_out t) = true
   else ia_ignore_compatible (at_args t) = true \/
        exists v, text cl kf "system" "compatible" = Some v /\ v <> "" /\ mf_compatible m = Some v) /\
  (forall min, nonempty (text cl kf "system" "min-bundle-version") = Some min ->
     ia_ignore_version (at_args t) = true \/ exists v, mf_version m = Some v /\ semver_less_equal min v = Ok true).

(** the section [slot.CLASS.INDEX] describes the slot [s] *)
Definition slot_text (cl : cmdline) (kf : keyfile) (s : slot) : Prop :=
  exists idx, sl_name s = (sl_class s ++ "." ++ idx)%string /\ no_char "." (sl_class s) = true /\ no_char "." idx = true /\
    let key := text cl kf ("slot." ++ sl_name s) in
    key "device" = Some (sl_device s) /\ sl_device s <> "" /\
    sl_type s = (match nonempty (key "type") with Some t => t | None => "raw" end) /\
    sl_bootname s = nonempty (key "bootname") /\
    (sl_readonly s = true <-> on (key "readonly")) /\
    (sl_parent s = None <-> nonempty (key "parent") = None).

(** one status file, which is not on the slots *)
Definition central_status (cl : cmdline) (kf : keyfile) : Prop :=
  match nonempty (text cl kf "system" "statusfile") with
  | Some f => f <> "per-slot"
  | None => nonempty (text cl kf "system" "data-directory") <> None
  end.
(** no two slot sections have the same device *)
Definition own_devices (cl : cmdline) (kf : keyfile) : Prop :=
  forall a b dev, text cl kf ("slot." ++ a) "device" = Some dev -> text cl kf ("slot." ++ b) "device" = Some dev -> a = b.
