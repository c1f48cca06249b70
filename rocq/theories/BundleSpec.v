(** Vocabulary of C35 - C37. *)
From Verif Require Import Base Image KeyFile Hex HexProofs Semver Manifest Bundle ManifestCheckProofs.

(** everything check_bundle sees *)
Record origin := mkOrigin {
  og_crypto : crypto; og_conf : bconf; og_params : bparams;
  og_remote : bool; og_file : bytes;
  og_excl : bool;     (* enforce_bundle_exclusive succeeded *)
  og_access : bool    (* check_bundle_access succeeded *)
}.
Definition og_check (o : origin) : res bundle :=
  check_bundle (og_crypto o) (og_conf o) (og_params o) (og_remote o) (og_file o) (og_excl o) (og_access o).
Definition og_open (o : origin) : res (nat * bytes) :=
  if og_remote o then open_remote (bc_maxsig (og_conf o)) (og_file o) else open_local (bc_maxsig (og_conf o)) (og_file o).

(** [sig] is the signature of the bundle, after decryption if it is encrypted *)
Definition bundle_sig (o : origin) (size : nat) (sig : bytes) (detached : bool) : Prop :=
  exists raw, og_open o = Ok (size, raw) /\ cm_detached (og_crypto o) raw = Some detached /\
    if cm_enveloped (og_crypto o) raw then cm_decrypt (og_crypto o) raw = Some sig else sig = raw.

(** [m] is the manifest in the signature; verified unless that was disabled *)
Definition signed_manifest (o : origin) (size : nat) (m : manifest) : Prop :=
  exists sig mb, bundle_sig o size sig false /\ cm_load (og_crypto o) mb = Ok m /\
    (bp_verify (og_params o) = true -> bc_keyring (og_conf o) = true /\ cm_verify (og_crypto o) sig = Some mb) /\
    (bp_verify (og_params o) = false -> cm_unverified (og_crypto o) sig = Some mb).

(** the first [size] bytes of the file are signed (plain format) and could not be changed
    by others, unless verification was disabled *)
Definition signed_payload (o : origin) (size : nat) : Prop :=
  exists sig, bundle_sig o size sig true /\ og_remote o = false /\
    (bp_verify (og_params o) = true ->
       bc_keyring (og_conf o) = true /\
       (bp_trust_env (og_params o) = true \/ og_excl o = true) /\
       cm_verify_fd (og_crypto o) (firstn size (og_file o)) sig = true).

Definition verity_fields (o : origin) (size : nat) (fmt : bformat) (ds : Z) (root salt : string) (m : manifest) : Prop :=
  signed_manifest o size m /\ mf_format m = fmt /\ bc_allowed (og_conf o) fmt = true /\
  mf_verity_hash m = Some root /\ mf_verity_salt m = Some salt /\ hex64 root /\ hex64 salt /\
  mf_verity_size m <> 0%N /\ (mf_verity_size m mod 4096 = 0)%N /\
  ds = (Z.of_nat size - Z.of_N (mf_verity_size m))%Z.

(** what an access to bundle contents needs *)
Definition authentic (o : origin) (e : access_ev) : Prop :=
  match e with
  | AMountRaw size => signed_payload o size /\ bc_allowed (og_conf o) F_PLAIN = true
  | AMountVerity ds root salt => exists size m, verity_fields o size F_VERITY ds root salt m
  | AMountCrypt ds root salt key =>
      exists size m, verity_fields o size F_CRYPT ds root salt m /\ mf_crypt_key m = Some key /\ hex64 key
  | AExtract size =>
      (signed_payload o size /\ bc_allowed (og_conf o) F_PLAIN = true) \/
      exists m, signed_manifest o size m /\ bc_allowed (og_conf o) (mf_format m) = true /\ mf_format m <> F_PLAIN /\
        (bp_verify (og_params o) = true ->
           og_remote o = false /\ (bp_trust_env (og_params o) = true \/ og_access o = true) /\
           exists f root salt ds, verity_fields o size (mf_format m) ds root salt m /\ (0 <= ds)%Z /\
             cm_verity (og_crypto o) (firstn size f) (Z.to_nat ds) root salt = true)
  end.

(** *** C37: what makes a file safe against modification by others *)
Definition safe_file (euid : N) (s : fstate) : Prop :=
  fs_regular s = true /\
  (fs_uid s = 0%N \/ fs_uid s = euid) /\
  (* neither group nor others may write; no setuid, setgid or sticky bit *)
  N.testbit (fs_perm s) 4 = false /\ N.testbit (fs_perm s) 1 = false /\
  (forall k, (9 <= k)%N -> N.testbit (fs_perm s) k = false) /\
  (* on the root file system, or a file system set up by root in memory, or a local one
     whose device belongs to root *)
  (fs_root_dev s = Some (fs_dev s) \/
   (fs_root_dev s <> None /\
    (In (fs_type s) ["hostfs"; "overlayfs"; "ramfs"; "tmpfs"; "ubifs"; "zfs"] \/
     (In (fs_type s) ["afs"; "btrfs"; "cramfs"; "exfat"; "ext4"; "f2fs"; "isofs"; "jffs2"; "msdos"; "ntfs"; "ntfs3";
                      "romfs"; "squashfs"; "udf"; "xfs"] /\
      exists pre post, fs_mounts s = pre ++ Some (fs_dev s, 0%N) :: post /\
        forall uid, ~ In (Some (fs_dev s, uid)) pre)))) /\
  (* nobody has it open for writing *)
  fs_lease s = true.

(** *** C35: the file is the payload ([size] bytes), a non-empty signature of at most
    [maxsig] bytes, and the size of the signature as 64 bit big endian number *)
Definition trailer_ok (maxsig : N) (f : bytes) (size : nat) (sig : bytes) : Prop :=
  f = firstn size f ++ sig ++ be64 (N.of_nat (List.length sig)) /\ List.length (firstn size f) = size /\
  sig <> [] /\ (N.of_nat (List.length sig) <= maxsig)%N.

