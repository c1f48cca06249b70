(** Model of src/bundle.c: trailer, access checks, signature check, payload check, mounting.
    Bytes are [ascii] as in Hex.v.  CMS, squashfs and dm-verity are parameters. *)
From Verif Require Import Base Image KeyFile Hex Semver Manifest.

(** *** trailer *)

(** GUINT64_TO_BE / GUINT64_FROM_BE, as bytes *)
Fixpoint be_bytes (k : nat) (n : N) : bytes :=
  match k with
  | O => []
  | S k => ascii_of_N (n / 256 ^ N.of_nat k mod 256)%N :: be_bytes k n
  end.
Definition be64 (n : N) : bytes := be_bytes 8 n.
Definition de_be (l : bytes) : N := fold_left (fun a c => (a * 256 + N_of_ascii c)%N) l 0%N.

(** bundle.c:815-867 append_signature_to_bundle *)
Definition append_signature (file sig : bytes) : bytes :=
  file ++ sig ++ be64 (N.of_nat (List.length sig)).

(** bundle.c:2063-2166 open_local_bundle (for a regular file; [maxsig] =
    max-bundle-signature-size): (size, sigdata) *)
Definition open_local (maxsig : N) (f : bytes) : res (nat * bytes) :=
  if (List.length f <? 8)%nat then Err                                   (* seek before start *)
  else
    let off := List.length f - 8 in
    let sigsize := de_be (skipn off f) in
    if (sigsize =? 0)%N then Err
    else if (N.of_nat off <? sigsize)%N then Err
    else if (maxsig <? sigsize)%N then Err
    else let size := off - N.to_nat sigsize in
         Ok (size, firstn (N.to_nat sigsize) (skipn size f)).

(** bundle.c:2169-2254 open_remote_bundle *)
Definition open_remote (maxsig : N) (f : bytes) : res (nat * bytes) :=
  if (List.length f <? 8)%nat then Err
  else
    let off := List.length f - 8 in
    let sigsize := de_be (skipn off f) in
    if (sigsize =? 0)%N then Err
    else if (N.of_nat off <? sigsize)%N then Err
    else if (maxsig <? sigsize)%N then Err
    else let size := off - N.to_nat sigsize in
         if negb (Nat.eqb (size mod 4096) 0) then Err
         else Ok (size, firstn (N.to_nat sigsize) (skipn size f)).

(** bundle.c:1419-1463 truncate_bundle: the output file *)
Definition truncate_bundle (f : bytes) (size : nat) : bytes := firstn size f.

(** bundle.c:1465-1525 resign_bundle, 2636-2729 replace_signature: the output file *)
Definition resign (f : bytes) (size : nat) (sig : bytes) : bytes :=
  append_signature (truncate_bundle f size) sig.

(** *** access (bundle.c:1752-2061) *)

Inductive fskind := FsUnsafe | FsLocal | FsByRoot | FsUnknown.
(** bundle.c:1886-1929, f_type by name *)
Definition fs_kind (t : string) : fskind :=
  let mem := existsb (String.eqb t) in
  if mem ["fuse"; "nfs"] then FsUnsafe
  else if mem ["afs"; "btrfs"; "cramfs"; "exfat"; "ext4"; "f2fs"; "isofs"; "jffs2"; "msdos"; "ntfs"; "ntfs3";
               "romfs"; "squashfs"; "udf"; "xfs"] then FsLocal
  else if mem ["hostfs"; "overlayfs"; "ramfs"; "tmpfs"; "ubifs"; "zfs"] then FsByRoot
  else FsUnknown.

(** what the kernel says about the file; a [None] is a failing system call *)
Record fstate := mkFstate {
  fs_regular : bool;
  fs_uid : N;
  fs_perm : N;                             (* st_mode & 07777 *)
  fs_dev : N;
  fs_type : string;                        (* statfs f_type *)
  fs_root_dev : option N;                  (* stat("/") *)
  fs_mounts : list (option (N * N));       (* per mount entry: stat of the device: st_rdev, st_uid *)
  fs_lease : bool                          (* the three fcntl calls succeed: nobody has it open for writing *)
}.

(** bundle.c:1934-1957: first mount entry with this device *)
Fixpoint find_mount (dev : N) (l : list (option (N * N))) : option N :=
  match l with
  | [] => None
  | None :: r => find_mount dev r
  | Some (rdev, uid) :: r => if (rdev =? dev)%N then Some uid else find_mount dev r
  end.

(** bundle.c:1806-2010 check_bundle_access *)
Definition check_access (euid : N) (s : fstate) : bool :=
  if negb (fs_regular s) then false else
  if negb (fs_uid s =? 0)%N && negb (fs_uid s =? euid)%N then false else
  if negb (N.ldiff (fs_perm s) 493 =? 0)%N then false else              (* perm & ~0755 *)
  match fs_root_dev s with
  | None => false
  | Some rd =>
      let on_root := (rd =? fs_dev s)%N in
      let kind := fs_kind (fs_type s) in
      let checked :=
        if on_root then true
        else match kind with
             | FsUnsafe | FsUnknown => false
             | FsByRoot => true
             | FsLocal => match find_mount (fs_dev s) (fs_mounts s) with
                          | Some uid => (uid =? 0)%N
                          | None => false
                          end
             end in
      if negb checked then false else fs_lease s
  end.

(** bundle.c:1752-1804 take_bundle_ownership; [chown], [chmod]: whether the calls succeed *)
Definition take_ownership (euid : N) (chown chmod : bool) (s : fstate) : fstate :=
  let set_perm s :=
    let p := N.land (fs_perm s) 420 in                                    (* 0644 *)
    if (p =? fs_perm s)%N then s
    else if chmod then mkFstate (fs_regular s) (fs_uid s) p (fs_dev s) (fs_type s) (fs_root_dev s) (fs_mounts s) (fs_lease s)
    else s in
  if negb (fs_uid s =? 0)%N && negb (fs_uid s =? euid)%N then
    if negb (euid =? 0)%N then s
    else if chown then set_perm (mkFstate (fs_regular s) 0 (fs_perm s) (fs_dev s) (fs_type s) (fs_root_dev s) (fs_mounts s) (fs_lease s))
    else s
  else set_perm s.

(** bundle.c:2012-2051 enforce_bundle_exclusive: result and final state of the file *)
Definition enforce_exclusive (euid : N) (chown chmod : bool) (s : fstate) : bool * fstate :=
  if check_access euid s then (true, s)
  else let s' := take_ownership euid chown chmod s in (check_access euid s', s').

(** *** checking and mounting *)

(** what OpenSSL, squashfs and the verity code say; None = failure *)
Record crypto := mkCrypto {
  cm_detached : bytes -> option bool;         (* cms_is_detached *)
  cm_enveloped : bytes -> bool;               (* cms_is_envelopeddata *)
  cm_decrypt : bytes -> option bytes;         (* cms_decrypt *)
  cm_verify : bytes -> option bytes;          (* cms_verify_sig (and cms_get_cert_chain): signed content *)
  cm_verify_fd : bytes -> bytes -> bool;      (* cms_verify_fd payload signature *)
  cm_unverified : bytes -> option bytes;      (* cms_get_unverified_manifest *)
  cm_load : bytes -> res manifest;            (* load_manifest_mem *)
  cm_inner : bytes -> res manifest;           (* manifest.raucm inside a squashfs payload *)
  cm_verity : bytes -> nat -> string -> string -> bool   (* r_verity_hash_verify payload data_size root salt *)
}.

Record bconf := mkBconf {
  bc_keyring : bool;              (* keyring path or directory configured *)
  bc_key : bool;                  (* encryption key configured *)
  bc_allowed : bformat -> bool;   (* bundle-formats mask *)
  bc_maxsig : N;
  bc_rauc : string                (* our own version *)
}.

Record bparams := mkBparams { bp_verify : bool; bp_trust_env : bool }.

(** RaucBundle (include/bundle.h) *)
Record bundle := mkBundle {
  b_remote : bool;                (* nbd_srv instead of stream *)
  b_size : nat;
  b_sig : bytes;
  b_was_encrypted : bool;
  b_disabled : bool;              (* verification_disabled *)
  b_sig_verified : bool;
  b_payload_verified : bool;
  b_exclusive : bool;             (* exclusive_verified *)
  b_manifest : option manifest;
  b_mounted : bool
}.
(** g_new0 *)
Definition new_bundle (remote : bool) : bundle := mkBundle remote 0 [] false false false false false None false.

(** bundle.c:2264-2296 check_allowed_bundle_format *)
Definition format_allowed (cf : bconf) (m : option manifest) : bool :=
  match m with
  | None => bc_allowed cf F_PLAIN
  | Some m => match mf_format m with
              | F_PLAIN => true
              | F_VERITY => bc_allowed cf F_VERITY
              | F_CRYPT => bc_allowed cf F_CRYPT
              end
  end.

(** bundle.c:2298-2560 check_bundle.  [excl] = enforce_bundle_exclusive, [access] =
    check_bundle_access succeeds. *)
Definition check_bundle (cr : crypto) (cf : bconf) (pr : bparams) (remote : bool) (f : bytes) (excl access : bool)
  : res bundle :=
  if bp_verify pr && negb (bc_keyring cf) then Err else
  do (size, raw) <- (if remote then open_remote (bc_maxsig cf) f else open_local (bc_maxsig cf) f) ;;
  do detached <- of_option (cm_detached cr raw) ;;
  if detached && remote then Err else
  do (enc, sig) <- (if cm_enveloped cr raw then
                      if bc_key cf then match cm_decrypt cr raw with Some s => Ok (true, s) | None => Err end
                      else Err
                    else Ok (false, raw)) ;;
  do b <- (if bp_verify pr then
             if detached then
               if bp_trust_env pr || excl then
                 if cm_verify_fd cr (firstn size f) sig
                 then Ok (mkBundle remote size sig enc false true true true None false, None)
                 else Err
               else Err
             else
               match cm_verify cr sig with
               | None => Err
               | Some mb => Ok (mkBundle remote size sig enc false true false
                                  (negb remote && (bp_trust_env pr || access)) None false, Some mb)
               end
           else
             if detached then Ok (mkBundle remote size sig enc true false false false None false, None)
             else match cm_unverified cr sig with
                  | None => Err
                  | Some mb => Ok (mkBundle remote size sig enc true false false false None false, Some mb)
                  end) ;;
  let '(b, mb) := b in
  do m <- (match mb with
           | None => Ok None
           | Some mb => do m <- cm_load cr mb ;;
                        if bformat_eqb (mf_format m) F_PLAIN then Err else Ok (Some m)
           end) ;;
  if negb (format_allowed cf m) then Err
  else Ok (mkBundle (b_remote b) (b_size b) (b_sig b) (b_was_encrypted b) (b_disabled b) (b_sig_verified b)
             (b_payload_verified b) (b_exclusive b) m false).

(** what is made available to the rest of rauc: a plain range of the file, a dm-verity
    device over it, or the same with dm-crypt on top; or the unpacked squashfs *)
Inductive access_ev :=
| AMountRaw (size : nat)
| AMountVerity (data_size : Z) (root salt : string)
| AMountCrypt (data_size : Z) (root salt key : string)
| AExtract (size : nat).

(** gint64 of bundle->size - verity_size *)
Definition data_size (b : bundle) (m : manifest) : Z := (Z.of_nat (b_size b) - Z.of_N (mf_verity_size m))%Z.

Definition with_payload (b : bundle) : bundle :=
  mkBundle (b_remote b) (b_size b) (b_sig b) (b_was_encrypted b) (b_disabled b) (b_sig_verified b) true
    (b_exclusive b) (b_manifest b) (b_mounted b).
(** mounting a plain bundle loads its manifest; check_manifest_* may adapt sizes *)
Definition with_manifest (b : bundle) (m : option manifest) (mounted : bool) : bundle :=
  mkBundle (b_remote b) (b_size b) (b_sig b) (b_was_encrypted b) (b_disabled b) (b_sig_verified b) (b_payload_verified b)
    (b_exclusive b) m mounted.

(** bundle.c:2562-2634 check_bundle_payload; [f]: the file now *)
Definition check_payload (cr : crypto) (cf : bconf) (f : bytes) (b : bundle) : res bundle :=
  if b_disabled b || b_payload_verified b then Ok b
  else if b_remote b then Err
  else if negb (b_exclusive b) then Err
  else match b_manifest b with
       | None => Abort
       | Some m =>
           do m <- check_external (bc_rauc cf) m ;;
           match mf_verity_hash m, mf_verity_salt m with
           | Some root, Some salt =>
               if negb (Nat.eqb (b_size b mod 4096) 0) then Abort                   (* g_assert :2607 *)
               else if (data_size b m <? 0)%Z then Err       (* negative block count; see DESIGN *)
               else if cm_verity cr (firstn (b_size b) f) (Z.to_nat (data_size b m)) root salt
                    then Ok (with_payload (with_manifest b (Some m) (b_mounted b))) else Err
           | _, _ => Abort
           end
       end.

(** bundle.c:3073-3187 mount_bundle; [ok]: the device and mount calls succeed *)
Definition mount_bundle (cr : crypto) (cf : bconf) (f : bytes) (ok : bool) (b : bundle) : res (bundle * access_ev) :=
  if b_mounted b then Abort                                                        (* g_assert_null :3086 *)
  else if negb (b_sig_verified b || b_disabled b) then Abort                       (* g_error :3098 *)
  else if negb ok then Err
  else match b_manifest b with
       | None =>
           if negb (b_payload_verified b || b_disabled b) then Abort               (* g_error :3132 *)
           else do m <- cm_inner cr (firstn (b_size b) f) ;;
                do m <- check_internal (bc_rauc cf) m ;;
                if negb (bformat_eqb (mf_format m) F_PLAIN) then Err
                else Ok (with_manifest b (Some m) true, AMountRaw (b_size b))
       | Some m0 =>
           match mf_format m0 with
           | F_PLAIN => Abort                                                       (* g_error :3167 *)
           | F_VERITY =>
               do m <- check_external (bc_rauc cf) m0 ;;
               match mf_verity_hash m, mf_verity_salt m with
               | Some root, Some salt =>
                   Ok (with_manifest b (Some m) true, AMountVerity (data_size b m) root salt)
               | _, _ => Abort
               end
           | F_CRYPT =>
               do m <- check_external (bc_rauc cf) m0 ;;
               match mf_verity_hash m, mf_verity_salt m, mf_crypt_key m with
               | Some root, Some salt, Some key =>
                   Ok (with_manifest b (Some m) true, AMountCrypt (data_size b m) root salt key)
               | _, _, _ => Abort
               end
           end
       end.

(** bundle.c:2763-2800 extract_bundle (decryption of crypt payloads is not modelled) *)
Definition extract_bundle (cr : crypto) (cf : bconf) (f : bytes) (ok : bool) (b : bundle) : res (bundle * access_ev) :=
  do b <- check_payload cr cf f b ;;
  if b_remote b then Abort else if ok then Ok (b, AExtract (b_size b)) else Err.

(** a caller: any sequence of operations on one bundle object, the file may change between
    them *)
Inductive bop := OpPayload (f : bytes) | OpMount (f : bytes) (ok : bool) | OpExtract (f : bytes) (ok : bool) | OpUmount.

(** state and events; an error leaves the bundle as it was, an abort ends the process *)
Fixpoint run_ops (cr : crypto) (cf : bconf) (b : bundle) (ops : list bop) : list access_ev :=
  match ops with
  | [] => []
  | OpPayload f :: r => match check_payload cr cf f b with
                        | Ok b' => run_ops cr cf b' r | Err => run_ops cr cf b r | Abort => [] end
  | OpMount f ok :: r => match mount_bundle cr cf f ok b with
                         | Ok (b', e) => e :: run_ops cr cf b' r | Err => run_ops cr cf b r | Abort => [] end
  | OpExtract f ok :: r => match extract_bundle cr cf f ok b with
                           | Ok (b', e) => e :: run_ops cr cf b' r | Err => run_ops cr cf b r | Abort => [] end
  | OpUmount :: r => if b_mounted b then run_ops cr cf (with_manifest b (b_manifest b) false) r else []
  end.
