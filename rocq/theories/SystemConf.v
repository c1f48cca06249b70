(** From the configuration to what installations work with: src/config_file.c fills
    r_context()->config, and the other parts read its members.  This file has no logic of
    its own; it says which member is used where. *)
From Verif Require Import Base Slot Image KeyFile Semver Manifest Bundle Config Context InstallRun Gates.
From Verif Require Signature.

(** src/signature.c:497-549 setup_x509_store and :1124-1192 cms_check_signer_cns read the [keyring]
    settings; :1530-1550 use_bundle_signing_time; bundle.c:2466 CHECK_BUNDLE_NO_CHECK_TIME.
    context.c:522-528: --keyring and --keyring-directory have replaced path and directory *)
Definition keyconf_of (x : context) (no_time : bool) : Signature.keyconf :=
  let k := f_keyring (x_config x) in
  Signature.mkKeyconf (x_keyring x) (x_keydir x) (k_check_crl k) (k_partial_chain k) (k_check_purpose k)
    (k_allowed_cns k) (k_signing_time k) no_time.

(** include/manifest.h R_MANIFEST_FORMAT_*: the bit in bundle_formats_mask *)
Definition format_bit (f : bformat) : N := match f with F_PLAIN => 0 | F_VERITY => 1 | F_CRYPT => 2 end.

(** src/bundle.c:2315 (keyring), :2270-2290 (formats), :2132 and :2223 (signature size).  [key]: an
    encryption key is configured (its section is read, but the result is not part of [config]) *)
Definition is_set (o : option string) : bool := match o with Some _ => true | None => false end.
Definition bconf_of (x : context) (key : bool) (version : string) : bconf :=
  mkBconf (is_set (x_keyring x) || is_set (x_keydir x)) key (fun f => N.testbit (y_formats (f_system (x_config x))) (format_bit f))
    (y_max_signature (f_system (x_config x))) version.

(** the slots after parent_resolve (config_file.c:1260-1318): the parent is the root of the tree *)
Definition slot_of_conf (par : string -> option string) (s : cslot) : slot :=
  mkSlot (c_name s) (c_class s) (c_device s) (c_type s) (c_bootname s) (par (c_name s)) (c_readonly s) (c_install_same s).

(** src/install.c:1560-1760 do_install_bundle and launch_and_wait_default_handler: compatible,
    min-bundle-version, handlers, slots, artifact repositories, status file, activate-installed.
    [var]: the system variant (context.c:190 ff) *)
Definition sysconf_of (x : context) (var : option string) : sysconf :=
  let c := x_config x in
  mkConf (map (slot_of_conf (f_parent c)) (f_slots c)) (map p_name (f_repos c)) var
    (String.eqb (y_statusfile (f_system c)) "per-slot") (y_activate_installed (f_system c)).
Definition gconf_of (x : context) (key : bool) (version : string) (var : option string) : gconf :=
  let '(_, pre, post) := f_handlers (x_config x) in
  mkGconf (y_compatible (f_system (x_config x))) (y_min_bundle_version (f_system (x_config x)))
    (is_set pre) (is_set post) (bconf_of x key version) (sysconf_of x var).
