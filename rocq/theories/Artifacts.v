(** Model of the artifact repositories: src/artifacts.c, [r_update_symlink] /
    [r_syncfs] (src/utils.c:788-853) and the artifact part of the install run
    (src/install.c:526-536, 1328-1443, 1502-1506).

    One repository of type "files" or "trees" (or the directory level of a "composefs"
    one) without parent class: config_file.c refuses a repository with a parent class,
    and each repository has its own directory, so the repositories do not interact.

    The repository directory is a flat list of entries.  An entry is a symbolic link or
    "data"; data is an opaque content (a regular file or a whole directory tree).  Every
    change of the directory is an operation appended to a log, so that crash points can be
    stated over the log; every operation may fail (environment [s_env]). *)
From Verif Require Import Base KeyFile.

Definition content := string.
Inductive entry := ELink (target : string) | EData (c : content).
Definition dir := list (string * entry).

(** ** File system operations *)
Inductive op :=
| OData (n : string) (c : content)    (* the data below [n] now is [c] (create, write, remove inside a tree) *)
| OLink (n t : string)                (* symlink(2) *)
| ORename (a b : string)              (* rename(2) *)
| ORemove (n : string)                (* unlink(2) / rmdir(2) of the entry itself *)
| OSyncfs                             (* syncfs(2) *)
| OSyncDir.                           (* fsync(2) of the repository directory *)

Definition app_op (o : op) (d : dir) : dir :=
  match o with
  | OData n c => assoc_set n (EData c) d
  | OLink n t => assoc_set n (ELink t) d
  | ORename a b => match assoc a d with
                   | Some e => assoc_set b e (assoc_remove a d)
                   | None => d
                   end
  | ORemove n => assoc_remove n d
  | OSyncfs | OSyncDir => d
  end.

Record st := mkst {
  s_dir : dir;          (* current content as seen through the file system *)
  s_ops : list op;      (* everything done so far, oldest first *)
  s_env : list bool     (* results of the next system calls; [] = success from here on *)
}.

Definition M (A : Type) := st -> res A * st.
Definition ret {A} (a : A) : M A := fun s => (Ok a, s).
Definition fail {A} : M A := fun s => (Err, s).
Definition abort {A} : M A := fun s => (Abort, s).
Definition bindM {A B} (m : M A) (f : A -> M B) : M B :=
  fun s => match m s with
           | (Ok a, s') => f a s'
           | (Err, s') => (Err, s')
           | (Abort, s') => (Abort, s')
           end.
Notation "'run' x <- m ;; k" := (bindM m (fun x => k))
  (at level 200, x pattern, m at level 100, k at level 200, right associativity).

(** one system call changing the directory *)
Definition step (o : op) : M unit :=
  fun s => match s_env s with
           | false :: e => (Err, mkst (s_dir s) (s_ops s) e)
           | true :: e => (Ok tt, mkst (app_op o (s_dir s)) (s_ops s ++ [o]) e)
           | [] => (Ok tt, mkst (app_op o (s_dir s)) (s_ops s ++ [o]) [])
           end.

Definition get_dir : M dir := fun s => (Ok (s_dir s), s).

Fixpoint forM {A} (l : list A) (f : A -> M unit) : M unit :=
  match l with
  | [] => ret tt
  | a :: r => run _ <- f a ;; forM r f
  end.

(** ** What the code cannot control *)
Record world := mkworld {
  w_rm : string -> list content;     (* contents passed through while rm_tree removes the data of that entry *)
  w_cp : string -> list content;     (* contents passed through while that temporary entry is filled *)
  w_open : string -> option bool;    (* r_tree_check_open: Some true = files below are open; None = the check fails *)
  w_cfs : bool                       (* the repository has type "composefs" *)
}.

(** ** Names *)

(** a character matched by [0-9a-f] *)
Definition lhex (c : ascii) : bool :=
  let n := N_of_ascii c in ((48 <=? n)%N && (n <=? 57)%N) || ((97 <=? n)%N && (n <=? 102)%N).

(** split at the last '-' *)
Fixpoint last_dash (s : string) : option (string * string) :=
  match s with
  | EmptyString => None
  | String a r =>
      match last_dash r with
      | Some (x, y) => Some (String a x, y)
      | None => if Ascii.eqb a "-" then Some (EmptyString, r) else None
      end
  end.

(** The regular expression for ".artifact-NAME-DIGEST", NAME any text and DIGEST a nonempty
    word over [0-9a-f], anchored at both ends (artifacts.c:185-190, 254-259, 378-383); the second group has no '-', so the greedy first group ends at the last '-'.
    Simplified: line breaks in names are treated like other characters. *)
Definition parse_artifact (s : string) : option (string * string) :=
  if has_prefix ".artifact-" s then
    match last_dash (sdrop 10 s) with
    | Some (n, d) => if negb (String.eqb d "") && all_chars lhex d then Some (n, d) else None
    | None => None
    end
  else None.

(** artifacts.c:128 (relative to the repository) and the link target of artifacts.c:537-542 *)
Definition apath (n d : string) : string := (".artifact-" ++ n ++ "-" ++ d)%string.
(** artifacts.c:129 *)
Definition atmp (n d : string) : string := (apath n d ++ ".tmp")%string.

(** RArtifact, reduced to name, digest and the number of references from the one possible
    parent "" *)
Record art := mkart { a_name : string; a_digest : string; a_refs : nat }.
Definition table := list art.

Definition same_art (n d : string) (a : art) : bool := String.eqb (a_name a) n && String.eqb (a_digest a) d.

(** [r_artifact_find], artifacts.c:842-856 *)
Definition art_find (T : table) (n d : string) : option art := find (same_art n d) T.

(** G_FILE_TEST_IS_SYMLINK *)
Definition is_link (d : dir) (k : string) : bool :=
  match assoc k d with Some (ELink _) => true | _ => false end.

(** [r_artifact_repo_insert], artifacts.c:115-158 *)
Definition repo_insert (dr : dir) (T : table) (n d : string) : res table :=
  if is_link dr (apath n d) || is_link dr (atmp n d) then Abort
  else match art_find T n d with
       | Some _ => Err
       | None => Ok (T ++ [mkart n d 0])
       end.

Definition add_ref (n d : string) (T : table) : table :=
  map (fun a => if same_art n d a then mkart n d (S (a_refs a)) else a) T.

(** [artifact_repo_read_links] for the parent "", artifacts.c:173-240 *)
Definition read_link (T : table) (ke : string * entry) : table :=
  if has_prefix "." (fst ke) then T
  else match snd ke with
       | EData _ => T                                   (* g_file_read_link fails: warning *)
       | ELink t => match parse_artifact t with
                    | Some (n, d) => add_ref n d T      (* unknown artifacts: warning *)
                    | None => T
                    end
       end.

(** [r_artifact_repo_prepare], artifacts.c:242-338 (no parent class; the object store of
    composefs repositories is not part of this model) *)
Fixpoint prepare_entries (dr : dir) (l : list (string * entry)) (T : table) : res table :=
  match l with
  | [] => Ok T
  | (k, _) :: r =>
      match parse_artifact k with
      | None => prepare_entries dr r T
      | Some (n, d) => do T' <- repo_insert dr T n d ;; prepare_entries dr r T'
      end
  end.
Definition prepare (dr : dir) : res table :=
  do T <- prepare_entries dr dr [] ;;
  Ok (fold_left read_link dr T).

Definition prepareM : M table :=
  run d <- get_dir ;; fun s => (prepare d, s).

(** [rm_tree], src/utils.c:203-233: the data passes through arbitrary partial contents; a missing
    entry is an error *)
Definition rm_tree (w : world) (k : string) : M unit :=
  run d <- get_dir ;;
  match assoc k d with
  | None => fail
  | Some (ELink _) => step (ORemove k)
  | Some (EData _) =>
      run _ <- forM (w_rm w k) (fun c => step (OData k c)) ;;
      step (ORemove k)
  end.

(** [r_artifact_repo_prune], artifacts.c:369-495: first the unexpected data ... *)
Definition prune_unexpected (w : world) (ke : string * entry) : M unit :=
  let k := fst ke in
  match parse_artifact k with
  | Some _ => ret tt
  | None =>
      run d <- get_dir ;;
      if is_link d k then ret tt
      else if w_cfs w && String.eqb k ".rauc-cfs-store" then ret tt
      else rm_tree w k
  end.

(** ... then the artifacts without references; returns the remaining table (order of the
    hash table iteration = order of the list) *)
Fixpoint prune_arts (w : world) (T : table) : M table :=
  match T with
  | [] => ret []
  | a :: r =>
      if negb (Nat.eqb (a_refs a) 0) then run r' <- prune_arts w r ;; ret (a :: r')
      else match w_open w (apath (a_name a) (a_digest a)) with
           | None => fail
           | Some true => run r' <- prune_arts w r ;; ret (a :: r')
           | Some false =>
               run _ <- rm_tree w (apath (a_name a) (a_digest a)) ;;
               prune_arts w r
           end
  end.

Definition prune (w : world) (T : table) : M table :=
  run d <- get_dir ;;
  run _ <- forM d (prune_unexpected w) ;;
  prune_arts w T.

(** [r_artifact_install], artifacts.c:858-964: the temporary entry is filled (file copy, cp -a,
    tar -x: arbitrary intermediate contents), syncfs, rename, fsync of the directory.
    Simplified: a copy which reports success has copied the image ([i_content]); the fsync
    of the copied file (artifacts.c:743) adds nothing to the syncfs that follows. *)
Record image := mkimage { i_name : string; i_digest : string; i_content : content }.

Definition art_install (w : world) (i : image) : M unit :=
  let p := apath (i_name i) (i_digest i) in
  let t := atmp (i_name i) (i_digest i) in
  run d <- get_dir ;;
  if (match assoc p d with None => false | _ => true end)
     || (match assoc t d with None => false | _ => true end) then abort
  else
    run _ <- forM (w_cp w t) (fun c => step (OData t c)) ;;
    run _ <- step (OData t (i_content i)) ;;
    run _ <- step OSyncfs ;;
    run _ <- step (ORename t p) ;;
    step OSyncDir.

(** [r_artifact_activate] / [r_artifact_deactivate], artifacts.c:966-1005, parent "" *)
Definition activate (n d : string) (T : table) : table :=
  map (fun a => if String.eqb (a_name a) n
                then if String.eqb (a_digest a) d
                     then mkart (a_name a) (a_digest a) (Nat.max 1 (a_refs a))
                     else mkart (a_name a) (a_digest a) (a_refs a - 1)
                else a) T.

(** [r_update_symlink], src/utils.c:788-826 *)
Definition update_symlink (target name : string) : M unit :=
  let replace :=
    run d <- get_dir ;;
    let tmp := (name ++ ".tmp-link")%string in
    match assoc tmp d with
    | Some _ => fail                                            (* EEXIST *)
    | None =>
        run _ <- step (OLink tmp target) ;;
        fun s => match step (ORename tmp name) s with
                 | (Ok x, s') => (Ok x, s')
                 | (_, s') => (Err, snd (step (ORemove tmp) s'))
                 end
    end in
  run d <- get_dir ;;
  match assoc name d with
  | Some (EData _) => fail                                      (* readlink: EINVAL *)
  | Some (ELink t) => if String.eqb t target then ret tt else replace
  | None => replace
  end.

(** the artifacts visited by the inner loop of artifacts.c:528-549: up to the first enabled *)
Fixpoint visit (dr : dir) (T : table) : res (option art) :=
  match T with
  | [] => Ok None
  | a :: r =>
      match assoc (apath (a_name a) (a_digest a)) dr with
      | None => Abort                                           (* g_assert (artifacts.c:530) *)
      | Some _ => if Nat.eqb (a_refs a) 0 then visit dr r else Ok (Some a)
      end
  end.

(** one name of [r_artifact_repo_commit], artifacts.c:514-566 *)
Definition commit_name (T : table) (n : string) : M unit :=
  run d <- get_dir ;;
  match visit d (filter (fun a => String.eqb (a_name a) n) T) with
  | Err => fail
  | Abort => abort
  | Ok (Some a) => update_symlink (apath (a_name a) (a_digest a)) n
  | Ok None =>
      match assoc n d with
      | None => ret tt                                          (* ENOENT *)
      | Some _ => step (ORemove n)
      end
  end.

(** the names of the outer hash table *)
Definition table_names (T : table) : list string := nodup string_dec (map a_name T).

(** [r_artifact_repo_commit], artifacts.c:497-579 *)
Definition commit (T : table) : M unit :=
  run _ <- forM (table_names T) (commit_name T) ;;
  step OSyncfs.

(** [remove_old_artifacts], install.c:1328-1367; [r_manifest_has_artifact_image], manifest.c:1266-1292 *)
Definition forget_old (keep : list string) (T : table) : table :=
  map (fun a => if existsb (String.eqb (a_name a)) keep then a else mkart (a_name a) (a_digest a) 0) T.

Definition remove_old (keep : list string) (T : table) : M table :=
  let T' := forget_old keep T in
  run _ <- commit T' ;; ret T'.

(** The iteration order of the hash tables changes when elements are inserted: [ord] is any
    reordering ([w1], [w2]: what is open may change during the run). *)
Definition order := table -> table.

(** [handle_artifact_install_plan], install.c:1369-1443 *)
Definition handle_plan (w : world) (ord : order) (keep : list string) (T : table) (i : image) : M table :=
  run T1 <- remove_old keep T ;;
  match art_find T1 (i_name i) (i_digest i) with
  | Some _ =>
      let T2 := activate (i_name i) (i_digest i) T1 in
      run _ <- commit T2 ;; ret T2
  | None =>
      run d <- get_dir ;;
      run T2 <- (fun s => (repo_insert d T1 (i_name i) (i_digest i), s)) ;;
      run _ <- art_install w i ;;
      let T3 := activate (i_name i) (i_digest i) (ord T2) in
      run _ <- commit T3 ;; ret T3
  end.

Fixpoint handle_plans (w : world) (ord : order) (keep : list string) (T : table) (l : list image) : M table :=
  match l with
  | [] => ret T
  | i :: r => run T' <- handle_plan w ord keep T i ;; handle_plans w ord keep T' r
  end.

(** The artifact part of one installation: [r_install_make_plans] scans and prunes the
    repository (install.c:526-536), the image plans for this repository are processed
    (install.c:1483-1498; the slot plans in between do not touch it) and the repository is
    pruned again (install.c:1502).  [imgs] are the images of the manifest for this
    repository, in order. *)
Definition install_run (w1 w2 : world) (ord : order) (imgs : list image) : M table :=
  run T0 <- prepareM ;;
  run T1 <- prune w1 (ord T0) ;;
  run T2 <- handle_plans w1 ord (map i_name imgs) T1 imgs ;;
  prune w2 T2.

Definition start (d : dir) (env : list bool) : st := mkst d [] env.
