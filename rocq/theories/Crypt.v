(** Model of src/crypt.c and its callers in src/bundle.c (:992-1104): encryption of a
    bundle payload on creation and its decryption on "rauc extract". *)
From Verif Require Import Base Hex.

(** crypt.c:9 *)
Definition ENC_SEC_SIZE : nat := N.to_nat 4096.

(** GUINT64_TO_LE, memcpy of [n] bytes *)
Fixpoint le_bytes (n : nat) (v : N) : bytes :=
  match n with
  | O => []
  | S m => ascii_of_N (v mod 256) :: le_bytes m (v / 256)
  end.

(** crypt.c:18-26 iv_plain64, iv_size = 16; guint64 arithmetic *)
Definition iv_plain64 (sector : N) : bytes :=
  le_bytes 8 ((sector * 4096 mod 2 ^ 64) / 512) ++ repeat Ascii.zero 8.

(** crypt.c:76-110 the loop of encrypt_or_decrypt.  [cipher] is EVP_CipherInit_ex /
    EVP_CipherUpdate / EVP_CipherFinal_ex with the key and the direction (AES-256-CBC
    without padding; taken to succeed), applied to an IV and one sector; [data] is what
    fread still delivers (an fread error looks like the end of the file); [maxsize] =
    0: no limit.  Returns what is passed to fwrite and the result. *)
Fixpoint crypt_loop (fuel : nat) (cipher : bytes -> bytes -> bytes) (maxsize : N)
  (data : bytes) (sector done : N) : bytes * bool :=
  match fuel with
  | O => ([], true)
  | S f =>
      let inb := firstn ENC_SEC_SIZE data in
      let done' := (done + N.of_nat (List.length inb))%N in
      match inb with
      | [] => ([], true)                                                          (* :87-88 *)
      | _ =>
          if (List.length inb <? ENC_SEC_SIZE)%nat then ([], false)               (* :89-92 *)
          else if negb (maxsize =? 0)%N && (maxsize <? done')%N then ([], true)   (* :95-97 *)
          else
            let (out, r) := crypt_loop f cipher maxsize (skipn ENC_SEC_SIZE data) (sector + 1) done' in
            (cipher (iv_plain64 sector) inb ++ out, r)
      end
  end.
Definition encrypt_or_decrypt (cipher : bytes -> bytes -> bytes) (maxsize : N) (data : bytes) : bytes * bool :=
  crypt_loop (S (List.length data)) cipher maxsize data 0 0.

(** Files by path *)
Definition files := string -> option bytes.
Definition fset (fs : files) (p : string) (v : option bytes) : files :=
  fun q => if String.eqb q p then v else fs q.

(** What the environment does to the two stdio streams: the number of input bytes
    that can be read before an I/O error, the number of output bytes the file system
    has room for.  [None]: no such problem. *)
Record io := mkIo { io_readable : option N; io_room : option N }.
Definition cut (l : option N) (b : bytes) : bytes :=
  match l with None => b | Some n => firstn (N.to_nat n) b end.

(** crypt.c:113-157 r_crypt_encrypt_or_decrypt.  The results of fwrite and fclose are
    not looked at.  [can_create]: g_fopen (outpath, "w") works. *)
Definition crypt_file (cipher : bytes -> bytes -> bytes) (maxsize : N) (env : io) (can_create : bool)
  (fs : files) (inpath outpath : string) : files * bool :=
  match fs inpath with
  | None => (fs, false)
  | Some data =>
      if negb can_create then (fs, false)
      else
        let (out, r) := encrypt_or_decrypt cipher maxsize (cut (io_readable env) data) in
        (fset fs outpath (Some (cut (io_room env) out)), r)
  end.

(** AES-256-CBC with a key: encryption and decryption of a sector under an IV *)
Record cipher_pair := mkCipher {
  c_enc : bytes -> bytes -> bytes -> bytes;   (* key, iv, plain *)
  c_dec : bytes -> bytes -> bytes -> bytes
}.

(** bundle.c:1002-1049 encrypt_bundle_payload.  [key]: the RAND_bytes; [tmp]:
    g_build_filename (dirname, random name); [rename_ok]: g_rename.  The temporary
    file is removed on every early return (RTempFile).  Returns the manifest's
    crypt-key on success. *)
Definition encrypt_bundle_payload (C : cipher_pair) (key : bytes) (env : io) (can_create rename_ok : bool)
  (tmp bundlepath : string) (fs : files) : files * res string :=
  let (fs1, r) := crypt_file (c_enc C key) 0 env can_create fs bundlepath tmp in
  if negb r then (fset fs1 tmp None, Err)
  else
    match hex_encode key with
    | Ok hex =>
        if rename_ok
        then (fset (fset fs1 bundlepath (fs1 tmp)) tmp None, Ok hex)
        else (fset fs1 tmp None, Err)
    | _ => (fs1, Abort)
    end.

(** rm_tree: removes the directory and everything below it *)
Definition rm_tree (dir : string) (fs : files) : files :=
  fun q => if has_prefix (dir ++ "/")%string q then None else fs q.

(** bundle.c:1051-1104 decrypt_bundle_payload.  [tmpdir]: g_dir_make_tmp; the path of
    the decrypted file is g_strconcat (tmpdir, "decrypted.raucb") (:1070).  [size]:
    bundle->size (payload and hash tree), [verity_size]: from the manifest.  Returns
    the bytes bundle->stream then reads. *)
Definition decrypt_bundle_payload (C : cipher_pair) (hexkey : string) (env : io) (can_create : bool)
  (tmpdir bundlepath : string) (size verity_size : N) (fs : files) : files * res bytes :=
  let decpath := (tmpdir ++ "decrypted.raucb")%string in
  match hex_decode hexkey 32 with
  | None => (fs, Abort)
  | Some key =>
      let (fs1, r) := crypt_file (c_dec C key) (size - verity_size) env can_create fs bundlepath decpath in
      if negb r then (rm_tree tmpdir fs1, Err)
      else
        match fs1 decpath with
        | None => (rm_tree tmpdir fs1, Err)
        | Some b => (rm_tree tmpdir fs1, Ok b)
        end
  end.
