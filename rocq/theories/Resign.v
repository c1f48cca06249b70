(** Model of src/bundle.c: commands which derive a new bundle from an existing one - resign,
    replace-signature, encrypt - and extract-signature. *)
From Verif Require Import Base Image KeyFile Hex Semver Manifest Bundle Signature.

(** files by path *)
Definition rfs := string -> option bytes.
Definition fset (fs : rfs) (p : string) (v : option bytes) : rfs := fun q => if String.eqb q p then v else fs q.

(** how far copying or appending gets: complete, failing before anything was written, or
    failing after [n] bytes *)
Inductive outcome := Complete | FailsEarly | FailsAfter (n : nat).

(** bundle.c:1419-1463 truncate_bundle: the whole input is copied, then the output is cut (or
    extended with zeros) to [size]; the output is created by g_file_create, which fails if it
    exists *)
Definition truncate_file (fs : rfs) (inp out : string) (size : nat) (o : outcome) : bool * rfs :=
  match fs inp with
  | None => (false, fs)
  | Some f =>
      match fs out with
      | Some _ => (false, fs)
      | None =>
          match o with
          | FailsEarly => (false, fs)
          | FailsAfter n => (false, fset fs out (Some (firstn n f)))
          | Complete => (true, fset fs out (Some (firstn size f ++ repeat "000"%char (size - List.length f))))
          end
      end
  end.

(** bundle.c:815-867 append_signature_to_bundle on a file *)
Definition append_file (fs : rfs) (out : string) (sig : bytes) (o : outcome) : bool * rfs :=
  match fs out with
  | None => (false, fs)
  | Some f =>
      match o with
      | FailsEarly => (false, fs)
      | FailsAfter n => (false, fset fs out (Some (f ++ firstn n (sig ++ be64 (N.of_nat (List.length sig))))))
      | Complete => (true, fset fs out (Some (append_signature f sig)))
      end
  end.

(** utils.c:914-925 r_tempfile_cleanup (RTempFile): the output is removed on an early return *)
Definition tempfile_cleanup (fs : rfs) (out : string) : rfs := fset fs out None.

(** what happens on the way: [e_prepare]: payload check and manifest loading (resign), manifest
    loading and reading of the signature file (replace-signature), nothing (encrypt);
    [e_sig]: the signature made from the truncated file (None: signing, reading or encrypting
    failed) *)
Record renv := mkRenv {
  e_prepare : bool;
  e_copy : outcome;
  e_sig : bytes -> option bytes;
  e_append : outcome
}.

(** bundle.c:1481-1524, 1704-1737: after the check that the output does not exist *)
Definition derive_from (e : renv) (fs : rfs) (inp out : string) (size : nat) : bool * rfs :=
  if negb (e_prepare e) then (false, tempfile_cleanup fs out)
  else
    let '(ok, fs1) := truncate_file fs inp out size (e_copy e) in
    if negb ok then (false, tempfile_cleanup fs1 out)
    else
      match e_sig e (match fs1 out with Some f => f | None => [] end) with
      | None => (false, tempfile_cleanup fs1 out)
      | Some sig =>
          let '(ok, fs2) := append_file fs1 out sig (e_append e) in
          if ok then (true, fs2) else (false, tempfile_cleanup fs2 out)
      end.
(** bundle.c:1466-1525 resign_bundle, 1689-1738 encrypt_bundle: result and files *)
Definition derive (e : renv) (fs : rfs) (inp out : string) (size : nat) : bool * rfs :=
  match fs out with
  | Some _ => (false, fs)                                        (* already exists *)
  | None => derive_from e fs inp out size
  end.

(** the same when other programs work on the files: [between] is what they do between the
    check and the first step that touches the output *)
Definition derive_shared (e : renv) (between : rfs -> rfs) (fs : rfs) (inp out : string) (size : nat) : bool * rfs :=
  match fs out with
  | Some _ => (false, fs)
  | None => derive_from e (between fs) inp out size
  end.

(** *** the keyring settings, with the identity of the strings they point to *)
Definition ptr := (N * string)%type.
Record ksettings := mkKsettings {
  ks_path : option ptr;            (* config->keyring_path *)
  ks_dir : option ptr;             (* config->keyring_directory *)
  ks_signing : option ptr          (* context->signing_keyringpath *)
}.

(** bundle.c:2687-2694 *)
Definition use_signing (k : ksettings) : ksettings :=
  match ks_signing k with
  | Some p => mkKsettings (Some p) None (ks_signing k)
  | None => k
  end.
(** bundle.c:2631-2632, 2717-2721: [k0]: the settings before; what was saved is restored if
    one of the saved pointers is not NULL *)
Definition restore (reached : bool) (k0 k : ksettings) : ksettings :=
  let saved := if reached then match ks_signing k0 with
                               | Some _ => (ks_path k0, ks_dir k0)
                               | None => (None, None)
                               end
               else (None, None) in
  match saved with
  | (None, None) => k
  | (p, d) => mkKsettings p d (ks_signing k)
  end.

(** bundle.c:2636-2724 replace_signature; [chk path dir verify file]: check_bundle with these
    keyring settings accepts the file *)
Definition replace_signature (e : renv) (chk : option string -> option string -> bool -> bytes -> bool)
    (fs : rfs) (inp out : string) (size : nat) (k : ksettings) : bool * rfs * ksettings :=
  match fs out with
  | Some _ => (false, fs, k)
  | None =>
      if negb (e_prepare e) then (false, tempfile_cleanup fs out, restore false k k)
      else
        match e_sig e [] with
        | None => (false, tempfile_cleanup fs out, restore false k k)
        | Some sig =>
            let '(ok, fs1) := truncate_file fs inp out size (e_copy e) in
            if negb ok then (false, tempfile_cleanup fs1 out, restore false k k)
            else
              let '(ok, fs2) := append_file fs1 out sig (e_append e) in
              if negb ok then (false, tempfile_cleanup fs2 out, restore false k k)
              else
                let k1 := use_signing k in
                let path := option_map snd (ks_path k1) in
                let dir := option_map snd (ks_dir k1) in
                let verify := match path, dir with None, None => false | _, _ => true end in
                if chk path dir verify (match fs2 out with Some f => f | None => [] end)
                then (true, fs2, restore true k k1)
                else (false, tempfile_cleanup fs2 out, restore true k k1)
        end
  end.

(** context.c:911-954 r_context_clean and config_file.c:1563: the strings freed at the end *)
Definition frees (k : ksettings) : list N :=
  let f o := match o with Some (i, _) => [i] | None => [] end in
  f (ks_signing k) ++ f (ks_path k) ++ f (ks_dir k).

(** bundle.c:2726-2761 extract_signature: g_file_create of the output, then the signature *)
Definition extract_signature (fs : rfs) (out : string) (sig : bytes) (o : outcome) : bool * rfs :=
  match fs out with
  | Some _ => (false, fs)
  | None => match o with
            | FailsEarly => (false, fs)
            | FailsAfter n => (false, fset fs out (Some (firstn n sig)))
            | Complete => (true, fset fs out (Some sig))
            end
  end.
