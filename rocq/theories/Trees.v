(** Model of walking and removing directory trees (src/utils.c:205-327) and of resolving file
    names (src/utils.c:328-356).

    The file system is a finite map from absolute paths, given as lists of components, to
    nodes; the root directory itself is not an entry.  System calls resolve symbolic links in
    all components but the last.  Simplifications: a link is given with the absolute path it
    denotes; nobody else changes the file system during the walk; the names in a directory are
    read at once. *)
From Verif Require Import Base.
Open Scope list_scope.

Definition path := list string.
Fixpoint path_eqb (p q : path) : bool :=
  match p, q with
  | [], [] => true
  | a :: p', b :: q' => String.eqb a b && path_eqb p' q'
  | _, _ => false
  end.

(** [open]: somebody has the file open *)
Inductive kind := KDir | KFile (open : bool) | KLink (target : path) | KFifo | KDevice.
(** with the device number of the file system (st_dev): it differs below mount points *)
Record node := mkNode { nd_kind : kind; nd_dev : N }.

Definition fs := list (path * node).
Fixpoint lookup (f : fs) (p : path) : option node :=
  match f with
  | [] => None
  | (q, n) :: r => if path_eqb q p then Some n else lookup r p
  end.
Definition remove (f : fs) (p : path) : fs := filter (fun e => negb (path_eqb (fst e) p)) f.

(** [q] = [p ++ [c]] *)
Fixpoint child_of (p q : path) : option string :=
  match p, q with
  | [], [c] => Some c
  | a :: p', b :: q' => if String.eqb a b then child_of p' q' else None
  | _, _ => None
  end.
Definition children (f : fs) (p : path) : list string :=
  flat_map (fun e => match child_of p (fst e) with Some c => [c] | None => [] end) f.

(** path resolution of the kernel (path_resolution(7)); the last component is not followed *)
Fixpoint follow (f : fs) (links : nat) : path -> path -> option path :=
  fix go (done rest : path) : option path :=
    match rest with
    | [] => Some done
    | c :: r =>
        match r with
        | [] => Some (done ++ [c])
        | _ :: _ =>
            match lookup f (done ++ [c]) with
            | Some (mkNode KDir _) => go (done ++ [c]) r
            | Some (mkNode (KLink t) _) => match links with O => None | S k => follow f k [] (t ++ r) end
            | _ => None
            end
        end
    end.
Definition resolve (f : fs) (p : path) : option path := follow f 40 [] p.

(** which system calls fail for other reasons (permissions, I/O errors, ...) *)
Record env := mkEnv {
  e_keep : path -> bool;         (* unlink(2), rmdir(2) *)
  e_unreadable : path -> bool;   (* opendir(3) *)
  e_noopen : path -> bool;       (* open(2) *)
  e_nolease : path -> bool       (* fcntl(2) F_SETLEASE *)
}.

Definition lstat (f : fs) (p : path) : option node :=
  match resolve f p with Some q => lookup f q | None => None end.
Definition unlink (e : env) (f : fs) (p : path) : bool * fs :=
  match resolve f p with
  | None => (false, f)
  | Some q => match lookup f q with
              | None | Some (mkNode KDir _) => (false, f)
              | Some _ => if e_keep e q then (false, f) else (true, remove f q)
              end
  end.
Definition rmdir (e : env) (f : fs) (p : path) : bool * fs :=
  match resolve f p with
  | None => (false, f)
  | Some q => match lookup f q with
              | Some (mkNode KDir _) =>
                  match children f q with
                  | [] => if e_keep e q then (false, f) else (true, remove f q)
                  | _ :: _ => (false, f)
                  end
              | _ => (false, f)
              end
  end.
Definition readdir (e : env) (f : fs) (p : path) : option (list string) :=
  match resolve f p with
  | Some q => if e_unreadable e q then None else Some (children f q)
  | None => None
  end.

(** ** nftw(3) with FTW_DEPTH | FTW_MOUNT | FTW_PHYS *)
Inductive typeflag := FTW_F | FTW_SL | FTW_DP | FTW_DNR | FTW_NS.
(** the callback's result: 0, 1, -1 - or it does not return *)
Inductive walk := WGo | WStop | WFail | WHang.

(** glibc io/ftw.c process_entry, ftw_dir.  [dev]: the device number of the start *)
Fixpoint nftw (e : env) (cb : fs -> path -> typeflag -> walk * fs) (dev : N) (fuel : nat) (f : fs) (p : path) : walk * fs :=
  match fuel with
  | O => (WFail, f)
  | S fuel' =>
      match lstat f p with
      | None => cb f p FTW_NS
      | Some n =>
          if negb (N.eqb (nd_dev n) dev) then (WGo, f)                  (* FTW_MOUNT *)
          else match nd_kind n with
               | KLink _ => cb f p FTW_SL                               (* FTW_PHYS *)
               | KDir =>
                   match readdir e f p with
                   | None => cb f p FTW_DNR
                   | Some names =>
                       let '(r, f1) := fold_left (fun (a : walk * fs) c =>
                                         match fst a with
                                         | WGo => nftw e cb dev fuel' (snd a) (p ++ [c])
                                         | _ => a
                                         end) names (WGo, f) in
                       match r with WGo => cb f1 p FTW_DP | _ => (r, f1) end
                   end
               | _ => cb f p FTW_F
               end
      end
  end.
(** deep enough for every path of [f] *)
Definition depth (f : fs) : nat := S (fold_right (fun e n => Nat.max (List.length (fst e)) n) 0 f).
Definition nftw_start (e : env) (cb : fs -> path -> typeflag -> walk * fs) (f : fs) (p : path) : walk * fs :=
  match lstat f p with
  | None => (WFail, f)
  | Some n => nftw e cb (nd_dev n) (depth f) f p
  end.

(** utils.c:205-217 rm_tree_cb *)
Definition rm_tree_cb (e : env) (f : fs) (p : path) (t : typeflag) : walk * fs :=
  match t with
  | FTW_F | FTW_SL => let '(ok, f') := unlink e f p in (if ok then WGo else WFail, f')
  | FTW_DP => let '(ok, f') := rmdir e f p in (if ok then WGo else WFail, f')
  | FTW_DNR | FTW_NS => (WFail, f)
  end.
(** utils.c:219-233 rm_tree.  "/" is refused. *)
Definition rm_tree (e : env) (f : fs) (p : path) : bool * fs :=
  match p with
  | [] => (false, f)
  | _ => let '(r, f') := nftw_start e (rm_tree_cb e) f p in (match r with WGo => true | _ => false end, f')
  end.

(** utils.c:237-291 tree_check_open_cb.  A write lease needs a regular file nobody else has
    open; opening a FIFO for reading blocks until there is a writer. *)
Definition tree_check_open_cb (e : env) (f : fs) (p : path) (t : typeflag) : walk * fs :=
  (match t with
   | FTW_F =>
       match resolve f p with
       | None => WFail
       | Some q =>
           if e_noopen e q then WFail
           else match lookup f q with
                | Some (mkNode KFifo _) => WHang
                | Some (mkNode (KFile open) _) => if e_nolease e q then WFail else if open then WStop else WGo
                | _ => WFail                                             (* EINVAL *)
                end
       end
   | FTW_SL | FTW_DP => WGo
   | FTW_DNR | FTW_NS => WFail
   end, f).

(** the result of r_tree_check_open: not in use, R_UTILS_ERROR_OPEN_FILE, other errors *)
Inductive usage := Unused | InUse | Unknown | Hangs.
(** utils.c:293-327 r_tree_check_open *)
Definition tree_check_open (e : env) (f : fs) (p : path) : usage :=
  match p with
  | [] => Unknown
  | _ => match fst (nftw_start e (tree_check_open_cb e) f p) with
         | WGo => Unused | WStop => InUse | WFail => Unknown | WHang => Hangs
         end
  end.

(** artifacts.c:448-485 removing an artifact nothing refers to: Ok true = removed, Ok false =
    kept, Err = pruning fails.  None: does not return. *)
Definition prune_artifact (e : env) (f : fs) (p : path) : option (res bool) * fs :=
  match tree_check_open e f p with
  | Hangs => (None, f)
  | InUse => (Some (Ok false), f)
  | Unknown => (Some Err, f)
  | Unused => let '(ok, f') := rm_tree e f p in (Some (if ok then Ok true else Err), f')
  end.

(** ** resolving file names *)
(** g_path_get_dirname: the part before the last '/' (and without the '/'s before it) *)
Fixpoint drop_last_component (cs : list string) : list string :=
  match cs with
  | [] | [_] => []
  | c :: r => c :: drop_last_component r
  end.
(** File names as GLib sees them: absolute or not, and components.  (Repeated and trailing
    slashes are not kept, nor is the "." g_path_get_dirname gives for a plain name.) *)
Record fname := mkFname { fn_abs : bool; fn_parts : list string }.
Definition dir_of (n : fname) : fname := mkFname (fn_abs n) (drop_last_component (fn_parts n)).
Definition under (d n : fname) : fname := mkFname (fn_abs d) (fn_parts d ++ fn_parts n).

(** pkcs11 URIs and file names *)
Inductive location := LUri (u : string) | LFile (n : fname).
(** utils.c:328-349 resolve_path; [cwd]: g_get_current_dir *)
Definition resolve_path (cwd : fname) (basefile : option fname) (l : option location) : option location :=
  match l with
  | None => None
  | Some (LUri u) => Some (LUri u)
  | Some (LFile n) =>
      if fn_abs n then Some (LFile n)
      else match basefile with
           | None => Some (LFile (under cwd n))
           | Some b =>
               let d := dir_of b in
               if fn_abs d then Some (LFile (under d n)) else Some (LFile (under (under cwd d) n))
           end
  end.
