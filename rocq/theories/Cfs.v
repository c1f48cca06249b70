(** Model of composefs artifact repositories: src/artifacts_composefs.c, with the parts of src/artifacts.c (242-338,
    369-579, 858-1005) and src/install.c (526-536, 1328-1443, 1502) it works with.  The same level of detail as
    Artifacts.v, with the object store added and the directory level simplified: an artifact is identified by name
    and digest, a link has the name of its artifact, temporary links are not modelled (C40 has them).

    Every change is an operation appended to a log; every system call may fail (environment [s_env]). *)
From Verif Require Import Base.

(** What there is in a repository: objects below .rauc-cfs-store (content), .artifact-NAME-DIGEST (the content of its
    image.cfs), .artifact-NAME-DIGEST.tmp, and the link NAME (the digest of the artifact it points to). *)
Inductive item := KObj (o : string) | KArt (n g : string) | KTmp (n g : string) | KLink (n : string).
Definition item_eqb (a b : item) : bool :=
  match a, b with
  | KObj x, KObj y => String.eqb x y
  | KArt n g, KArt m h => String.eqb n m && String.eqb g h
  | KTmp n g, KTmp m h => String.eqb n m && String.eqb g h
  | KLink x, KLink y => String.eqb x y
  | _, _ => false
  end.
Definition disk := list (item * string).
Definition get (k : item) (d : disk) : option string := option_map snd (find (fun kv => item_eqb k (fst kv)) d).
Definition del (k : item) (d : disk) : disk := filter (fun kv => negb (item_eqb k (fst kv))) d.
Definition put (k : item) (v : string) (d : disk) : disk := (k, v) :: del k d.

Inductive op :=
| OData (k : item) (v : string)       (* the data of [k] now is [v] (create, write, remove inside; or a link replaced by rename) *)
| ORename (a b : item)                (* rename(2) *)
| ORemove (k : item)                  (* unlink(2) / rmdir(2) *)
| OSyncfs                             (* syncfs(2) *)
| OSyncDir.                           (* fsync(2) of the repository directory *)

Definition app_op (o : op) (d : disk) : disk :=
  match o with
  | OData k v => put k v d
  | ORename a b => match get a d with Some v => put b v (del a d) | None => d end
  | ORemove k => del k d
  | OSyncfs | OSyncDir => d
  end.

Record st := mkst { s_dir : disk; s_ops : list op; s_env : list bool }.
Definition M (A : Type) := st -> res A * st.
Definition ret {A} (a : A) : M A := fun s => (Ok a, s).
Definition fail {A} : M A := fun s => (Err, s).
Definition abort {A} : M A := fun s => (Abort, s).
Definition bindM {A B} (m : M A) (f : A -> M B) : M B :=
  fun s => match m s with (Ok a, s') => f a s' | (Err, s') => (Err, s') | (Abort, s') => (Abort, s') end.
Notation "'run' x <- m ;; k" := (bindM m (fun x => k))
  (at level 200, x pattern, m at level 100, k at level 200, right associativity).

(** a system call which changes something *)
Definition step (o : op) : M unit :=
  fun s => match s_env s with
           | false :: e => (Err, mkst (s_dir s) (s_ops s) e)
           | true :: e => (Ok tt, mkst (app_op o (s_dir s)) (s_ops s ++ [o]) e)
           | [] => (Ok tt, mkst (app_op o (s_dir s)) (s_ops s ++ [o]) [])
           end.
(** one which changes nothing that is modelled (mkdir of a subdirectory, rmdir of an empty one) *)
Definition callM : M unit :=
  fun s => match s_env s with
           | false :: e => (Err, mkst (s_dir s) (s_ops s) e)
           | true :: e => (Ok tt, mkst (s_dir s) (s_ops s) e)
           | [] => (Ok tt, s)
           end.
Definition get_dir : M disk := fun s => (Ok (s_dir s), s).
Fixpoint forM {A} (l : list A) (f : A -> M unit) : M unit :=
  match l with [] => ret tt | a :: r => run _ <- f a ;; forM r f end.

(** ** The image *)

(** lcfs_node_s: whether it is a regular file, its payload (the name of an object), its children *)
Inductive node := Node (regular : bool) (payload : option string) (children : list node).

Definition xdigit (c : ascii) : bool :=
  let n := N_of_ascii c in
  ((48 <=? n) && (n <=? 57) || (65 <=? n) && (n <=? 70) || (97 <=? n) && (n <=? 102))%N%bool.

(** artifacts_composefs.c:50-69 composefs_object_name_valid; LCFS_DIGEST_SIZE is 32 *)
Fixpoint xdigits_except_2 (i : nat) (s : string) : bool :=
  match s with
  | EmptyString => true
  | String c r => (Nat.eqb i 2 || xdigit c) && xdigits_except_2 (S i) r
  end.
Definition name_valid (s : string) : bool :=
  Nat.eqb (String.length s) 65 &&
  match String.get 2 s with Some c => Ascii.eqb c "/" | None => false end &&
  xdigits_except_2 0 s.

(** artifacts_composefs.c:74-104 composefs_collect_objects (a set; here in the order found, maybe repeated) *)
Fixpoint collect (n : node) : res (list string) :=
  match n with
  | Node _ _ cs =>
      (fix go (cs : list node) : res (list string) :=
         match cs with
         | [] => Ok []
         | c :: r =>
             do here <- match c with
                        | Node true (Some p) _ => if name_valid p then Ok [p] else Err
                        | _ => Ok []
                        end ;;
             do sub <- collect c ;;
             do rest <- go r ;;
             Ok (here ++ sub ++ rest)
         end) cs
  end.

(** artifacts_composefs.c:106-137 composefs_objects_from_image; [load]: lcfs_load_node_from_image *)
Definition objects_of (load : string -> option node) (img : string) : res (list string) :=
  match load img with None => Err | Some n => collect n end.

(** ** What the code cannot control *)
Record world := mkworld {
  w_rm : item -> list string;                   (* contents passed through while the item is removed *)
  w_cp : item -> list string;                   (* contents passed through while the item is copied *)
  w_open : string -> string -> option bool      (* r_tree_check_open; None = the check fails *)
}.

Definition key := (string * string)%type.
Definition key_eqb (a b : key) : bool := String.eqb (fst a) (fst b) && String.eqb (snd a) (snd b).
Definition mem (o : string) (l : list string) : bool := existsb (String.eqb o) l.
Definition kmem (a : key) (l : list key) : bool := existsb (key_eqb a) l.

(** The repository in memory: the artifacts, the referenced ones, and local_store_objects *)
Record repo := mkrepo { r_arts : list key; r_act : list key; r_local : list string }.

(** artifacts.c:242-338 r_artifact_repo_prepare, artifacts_composefs.c:139-205 r_composefs_artifact_repo_prepare *)
Definition arts_in (d : disk) : list key := flat_map (fun kv => match fst kv with KArt n g => [(n, g)] | _ => [] end) d.
Definition links_in (d : disk) : list key := flat_map (fun kv => match kv with (KLink n, g) => [(n, g)] | _ => [] end) d.
Definition objs_in (d : disk) : list string := flat_map (fun kv => match fst kv with KObj o => [o] | _ => [] end) d.
Definition tmps_in (d : disk) : list key := flat_map (fun kv => match fst kv with KTmp n g => [(n, g)] | _ => [] end) d.
Definition prepare (d : disk) : repo :=
  mkrepo (arts_in d) (filter (fun a => kmem a (arts_in d)) (links_in d)) (objs_in d).

(** src/utils.c:203-233 rm_tree *)
Definition rm_tree (w : world) (k : item) : M unit :=
  run d <- get_dir ;;
  match get k d with
  | None => fail
  | Some _ => run _ <- forM (w_rm w k) (fun c => step (OData k c)) ;; step (ORemove k)
  end.

(** artifacts.c:450-485: the artifacts without references, unless they are in use *)
Fixpoint prune_arts (w : world) (act T : list key) : M (list key) :=
  match T with
  | [] => ret []
  | a :: r =>
      if kmem a act then run r' <- prune_arts w act r ;; ret (a :: r')
      else match w_open w (fst a) (snd a) with
           | None => fail
           | Some true => run r' <- prune_arts w act r ;; ret (a :: r')
           | Some false => run _ <- rm_tree w (KArt (fst a) (snd a)) ;; prune_arts w act r
           end
  end.

(** artifacts_composefs.c:217-234: the objects of all artifacts *)
Fixpoint required (load : string -> option node) (d : disk) (T : list key) : res (list string) :=
  match T with
  | [] => Ok []
  | a :: r =>
      do here <- match get (KArt (fst a) (snd a)) d with None => Err | Some img => objects_of load img end ;;
      do rest <- required load d r ;;
      Ok (here ++ rest)
  end.

Definition unlinkM (k : item) : M unit :=
  run d <- get_dir ;; match get k d with None => fail | Some _ => step (ORemove k) end.

(** artifacts_composefs.c:207-304 r_composefs_artifact_repo_prune; returns the remaining local_store_objects.
    Removing the empty directories is one call that may fail. *)
Definition cfs_prune (load : string -> option node) (T : list key) (local : list string) : M (list string) :=
  run d <- get_dir ;;
  match required load d T with
  | Ok req =>
      let req' := filter (fun o => mem o local) req in
      run _ <- forM (filter (fun o => negb (mem o req')) local) (fun o => unlinkM (KObj o)) ;;
      run _ <- callM ;;
      ret (filter (fun o => mem o req') local)
  | _ => fail
  end.

(** artifacts.c:369-495 r_artifact_repo_prune *)
Definition prune (load : string -> option node) (w : world) (r : repo) : M repo :=
  run d <- get_dir ;;
  run _ <- forM (tmps_in d) (fun a => rm_tree w (KTmp (fst a) (snd a))) ;;
  run T <- prune_arts w (r_act r) (r_arts r) ;;
  run local <- cfs_prune load T (r_local r) ;;
  ret (mkrepo T (r_act r) local).

(** one image of the bundle: [i_img] is the content of its converted image.cfs *)
Record image := mkimage { i_name : string; i_digest : string; i_img : string }.
Definition ikey (i : image) : key := (i_name i, i_digest i).
Definition bundle := list (string * string).                  (* the object store in the bundle *)
Definition lookup (b : bundle) (o : string) : option string := option_map snd (find (fun kv => String.eqb o (fst kv)) b).

(** src/utils.c:188-203 copy_file (GIO refuses to overwrite), for the object [o] *)
Definition copy_object (w : world) (b : bundle) (o : string) : M unit :=
  run d <- get_dir ;;
  match get (KObj o) d, lookup b o with
  | None, Some c => run _ <- forM (w_cp w (KObj o)) (fun x => step (OData (KObj o) x)) ;; step (OData (KObj o) c)
  | _, _ => fail
  end.

(** artifacts_composefs.c:313-379 r_composefs_artifact_install.  Simplification: the missing objects are copied in the
    order found, not sorted. *)
Definition cfs_install (load : string -> option node) (w : world) (b : bundle) (local : list string) (i : image) : M (list string) :=
  let t := KTmp (i_name i) (i_digest i) in
  run _ <- forM (w_cp w t) (fun x => step (OData t x)) ;;
  run _ <- step (OData t (i_img i)) ;;
  run d <- get_dir ;;
  match match get t d with None => Err | Some img => objects_of load img end with
  | Ok objs =>
      let missing := nodup string_dec (filter (fun o => negb (mem o local)) objs) in
      run _ <- forM missing (fun o => run _ <- callM ;; copy_object w b o) ;;
      ret (local ++ missing)
  | _ => fail
  end.

(** artifacts.c:858-964 r_artifact_install *)
Definition art_install (load : string -> option node) (w : world) (b : bundle) (local : list string) (i : image) : M (list string) :=
  let p := KArt (i_name i) (i_digest i) in
  let t := KTmp (i_name i) (i_digest i) in
  run d <- get_dir ;;
  match get p d, get t d with
  | None, None =>
      run local' <- cfs_install load w b local i ;;
      run _ <- step OSyncfs ;;
      run _ <- step (ORename t p) ;;
      run _ <- step OSyncDir ;;
      ret local'
  | _, _ => abort
  end.

(** artifacts.c:966-1005 r_artifact_activate *)
Definition activate (a : key) (act : list key) : list key := a :: filter (fun x => negb (String.eqb (fst x) (fst a))) act.

(** artifacts.c:514-566: the link of one artifact name *)
Definition active (act : list key) (n : string) : option string := option_map snd (find (fun a => String.eqb (fst a) n) act).
Definition commit_name (act : list key) (n : string) : M unit :=
  run d <- get_dir ;;
  match active act n with
  | Some g =>
      match get (KArt n g) d with
      | None => abort                                         (* artifacts.c:530 *)
      | Some _ => match get (KLink n) d with
                  | Some h => if String.eqb h g then ret tt else step (OData (KLink n) g)
                  | None => step (OData (KLink n) g)
                  end
      end
  | None => match get (KLink n) d with None => ret tt | Some _ => step (ORemove (KLink n)) end
  end.
(** artifacts.c:497-579 r_artifact_repo_commit *)
Definition commit (T act : list key) : M unit :=
  run _ <- forM (nodup string_dec (map fst T)) (commit_name act) ;; step OSyncfs.

(** install.c:1328-1443 remove_old_artifacts, handle_artifact_install_plan *)
Definition handle_plan (load : string -> option node) (w : world) (b : bundle) (keep : list string) (r : repo) (i : image) : M repo :=
  let act1 := filter (fun a => mem (fst a) keep) (r_act r) in
  run _ <- commit (r_arts r) act1 ;;
  if kmem (ikey i) (r_arts r) then
    run _ <- commit (r_arts r) (activate (ikey i) act1) ;;
    ret (mkrepo (r_arts r) (activate (ikey i) act1) (r_local r))
  else
    run local <- art_install load w b (r_local r) i ;;
    run _ <- commit (r_arts r ++ [ikey i]) (activate (ikey i) act1) ;;
    ret (mkrepo (r_arts r ++ [ikey i]) (activate (ikey i) act1) local).
Fixpoint handle_plans (load : string -> option node) (w : world) (b : bundle) (keep : list string) (r : repo) (l : list image) : M repo :=
  match l with
  | [] => ret r
  | i :: l' => run r' <- handle_plan load w b keep r i ;; handle_plans load w b keep r' l'
  end.

(** The part of an installation which concerns this repository: install.c:526-536, 1483-1498, 1502 *)
Definition install_run (load : string -> option node) (w1 w2 : world) (b : bundle) (imgs : list image) : M repo :=
  run d <- get_dir ;;
  run r1 <- prune load w1 (prepare d) ;;
  run r2 <- handle_plans load w1 b (map i_name imgs) r1 imgs ;;
  prune load w2 r2.
Definition start (d : disk) (env : list bool) : st := mkst d [] env.
