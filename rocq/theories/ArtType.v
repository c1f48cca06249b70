(** What the installation of an artifact puts into the repository, for each repository type:
    src/artifacts.c:712-813 (the three kinds), :816-842 artifact_get_converted, :858-964 r_artifact_install, and
    src/install.c:1032-1062 (names of the image and its conversions in the mounted bundle), src/manifest.c:687-706.

    Simplifications: a path is a string and the bundle a function from absolute paths; what tar, cp and the composefs
    installation (modelled in Cfs.v) make of their source is a parameter; the syncs only succeed or fail here
    (their order and crashes: Artifacts.v). *)
From Verif Require Import Base.
Open Scope string_scope.

Inductive node := NFile (c : string) | NDir (l : list (string * node)).

(** struct _RaucImage: the members used here.  None: NULL *)
Record aimage := mkA { a_file : string; a_convert : option (list string); a_converted : option (list string) }.

(** manifest.c:687-706: the check when a bundle is opened *)
Definition conversions_ok (i : aimage) : bool :=
  match a_convert i with
  | None => true
  | Some l => match a_converted i with
              | None => false
              | Some k => Nat.eqb (List.length l) (List.length k) && forallb (no_char "/") k
              end
  end.

(** install.c:1033-1038, 1053-1057: g_path_is_absolute, g_build_filename.  Simplified: the directory does not end in a slash *)
Definition in_bundle (dir name : string) : string := if has_prefix "/" name then name else (dir ++ "/" ++ name)%string.
Definition exists_in (b : string -> option node) (p : string) : bool := match b p with Some _ => true | None => false end.
(** install.c:1032-1062 *)
Definition locate (b : string -> option node) (dir : string) (i : aimage) : res aimage :=
  let f := in_bundle dir (a_file i) in
  let k := match a_converted i with Some k => map (in_bundle dir) k | None => [] end in
  if negb (exists_in b f) && match k with [] => true | _ => false end then Err
  else if forallb (exists_in b) k then Ok (mkA f (a_convert i) (match a_converted i with Some _ => Some k | None => None end))
  else Err.

(** artifacts.c:816-842; a NULL converted with convert set is dereferenced (Abort) *)
Fixpoint pick (method : string) (l k : list string) : option string :=
  match l, k with
  | m :: l, n :: k => if String.eqb m method then Some n else pick method l k
  | _, _ => None
  end.
Definition get_converted (i : aimage) (method : string) : res (option string) :=
  match a_convert i with
  | None => Ok None
  | Some l => match a_converted i with
              | None => Abort
              | Some k => if Nat.eqb (List.length k) 0 then Ok None
                          else if negb (Nat.eqb (List.length l) (List.length k)) then Ok None else Ok (pick method l k)
              end
  end.

(** what the system does.  [w_left]: what a step that fails leaves at the temporary name *)
Record world := mkW {
  w_open : bool; w_create : bool; w_copy : bool; w_fsync : bool; w_close : bool;   (* artifacts.c:720-750 *)
  w_mkdir : bool; w_tar : bool; w_cp : bool; w_cfs : bool;                         (* :765, :784, :807, :904 *)
  w_diropen : bool; w_syncfs : bool; w_rename : bool; w_dirsync : bool;            (* :919-961 *)
  w_left : option node;
  w_untar : string -> option node;         (* the tree tar makes of an archive; None: not an archive *)
  w_mkcfs : node -> option node }.         (* what r_composefs_artifact_install makes of the converted directory *)
(** the repository: the artifact's temporary and final name *)
Record repo := mkR { r_tmp : option node; r_final : option node }.
Inductive kind := Files | Trees | Composefs | Other.

(** artifacts.c:712-754: the content at the temporary name, or a failure *)
Definition files_install (w : world) (b : string -> option node) (f : string) : option node * bool :=
  if w_open w then
    match b f with
    | None => (None, false)
    | Some x => if w_create w then
        match x with
        | NDir _ => (w_left w, false)                                          (* read: EISDIR *)
        | NFile c => if w_copy w then (Some (NFile c), w_fsync w && w_close w) else (w_left w, false)
        end else (None, false)
    end
  else (None, false).
(** artifacts.c:756-789 tar -xf NAME -C TMP *)
Definition tar_install (w : world) (b : string -> option node) (name : string) : option node * bool :=
  if w_mkdir w then
    match b name with
    | Some (NFile c) => match w_untar w c with
                        | Some t => if w_tar w then (Some t, true) else (w_left w, false)
                        | None => (w_left w, false)
                        end
    | _ => (w_left w, false)
    end
  else (None, false).
(** artifacts.c:792-813 cp -a NAME TMP; TMP does not exist *)
Definition cp_install (w : world) (b : string -> option node) (name : string) : option node * bool :=
  match b name with
  | Some x => if w_cp w then (Some x, true) else (w_left w, false)
  | None => (None, false)
  end.
(** artifacts_composefs.c r_composefs_artifact_install *)
Definition cfs_install (w : world) (b : string -> option node) (name : string) : option node * bool :=
  match b name with
  | Some x => match w_mkcfs w x with
              | Some y => if w_cfs w then (Some y, true) else (w_left w, false)
              | None => (w_left w, false)
              end
  | None => (None, false)
  end.
(** artifacts.c:871-917: which one *)
Definition fill (k : kind) (w : world) (b : string -> option node) (i : aimage) : res (option node * bool) :=
  match k with
  | Files => Ok (files_install w b (a_file i))
  | Trees =>
      do c <- get_converted i "tar-extract" ;;
      match c with
      | Some n => Ok (cp_install w b n)
      | None =>
          do c <- get_converted i "keep" ;;
          match c with
          | Some n => Ok (tar_install w b n)
          | None => if exists_in b (a_file i) then Ok (tar_install w b (a_file i)) else Ok (None, false)
          end
      end
  | Composefs =>
      do c <- get_converted i "composefs" ;;
      match c with Some n => Ok (cfs_install w b n) | None => Ok (None, false) end
  | Other => Abort
  end.
(** artifacts.c:858-964; g_assert (:868-870) *)
Definition install_artifact (k : kind) (w : world) (b : string -> option node) (i : aimage) (r : repo) : res bool * repo :=
  match r_final r, r_tmp r with
  | None, None =>
      if has_prefix "/" (a_file i) then
        match fill k w b i with
        | Ok (t, true) =>
            if w_diropen w && w_syncfs w && w_rename w then (if w_dirsync w then Ok true else Ok false, mkR None t)
            else (Ok false, mkR t None)
        | Ok (t, false) => (Ok false, mkR t None)
        | _ => (Abort, r)
        end
      else (Abort, r)
  | _, _ => (Abort, r)
  end.
(** a bundle's artifact image, from the manifest to the repository *)
Definition install_image (k : kind) (w : world) (b : string -> option node) (dir : string) (i : aimage) (r : repo) : res bool * repo :=
  if conversions_ok i then
    match locate b dir i with Ok i' => install_artifact k w b i' r | Err => (Ok false, r) | Abort => (Abort, r) end
  else (Ok false, r).
