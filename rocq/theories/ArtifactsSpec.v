(** Vocabulary for the statements about artifact repositories. *)
From Coq Require Import Permutation.
From Verif Require Import Base KeyFile Artifacts.

(** Artifact names which can come from a manifest (manifest.c:80-113 cuts the section name at '.'
    and at the first '/'); '/' cannot occur in a directory entry and "" cannot be linked. *)
Definition valid_name (n : string) : Prop := n <> "" /\ no_char "." n = true /\ no_char "/" n = true.
Definition hex_digest (g : string) : Prop := g <> "" /\ all_chars lhex g = true.
Definition visible (k : string) : Prop := has_prefix "." k = false.

(** link [l] points to the artifact [n] with digest [g] *)
Definition points (d : dir) (l n g : string) : Prop := assoc l d = Some (ELink (apath n g)).

(** no data except artifacts (and the object store of composefs) *)
Definition tidy (d : dir) : Prop :=
  forall k c, assoc k d = Some (EData c) -> parse_artifact k <> None \/ k = ".rauc-cfs-store".

(** a left-over temporary link, see [r_update_symlink] *)
Definition stale_link (n : string) : string := (n ++ ".tmp-link")%string.

Definition no_stale (d : dir) : Prop := forall n, valid_name n -> assoc (stale_link n) d = None.

(** the table of artifacts: an artifact is enabled if it is referenced *)
Definition listed (T : table) (n g : string) : Prop := exists a, In a T /\ a_name a = n /\ a_digest a = g.
Definition enab (T : table) (n g : string) : Prop := exists a, In a T /\ a_name a = n /\ a_digest a = g /\ a_refs a <> 0.

(** the last image for this name decides *)
Definition last_image (imgs : list image) (n : string) : option image :=
  find (fun i => String.eqb (i_name i) n) (rev imgs).

(** what pruning may remove *)
Definition removable (w : world) (d : dir) (k : string) : Prop :=
  (exists x, assoc k d = Some (EData x)) /\
  ((parse_artifact k = None /\ ~ (w_cfs w = true /\ k = ".rauc-cfs-store")) \/
   exists n g, hex_digest g /\ k = apath n g /\ w_open w k = Some false /\ forall l, visible l -> ~ points d l n g).

(** ** Crashes

    What may be on the disk for each entry: after [syncfs] exactly the current state; after
    that, any of the states the entry went through since, independently for every entry (no
    ordering between entries is assumed).  A renamed entry may show any content its source may
    have.  [fsync] of the directory makes its entries durable, but not the data below them. *)
Definition poss := string -> option entry -> Prop.

Definition on_disk (d : dir) : poss := fun k v => v = assoc k d.

Definition poss_step (o : op) (d : dir) (P : poss) : poss :=
  match o with
  | OData n c => fun k v => P k v \/ (k = n /\ v = Some (EData c))
  | OLink n t => fun k v => P k v \/ (k = n /\ v = Some (ELink t))
  | ORename a b => fun k v => P k v \/ (k = a /\ v = None) \/ (k = b /\ P a v /\ v <> None)
  | ORemove n => fun k v => P k v \/ (k = n /\ v = None)
  | OSyncfs => on_disk d
  | OSyncDir => fun k v =>
      match assoc k d with
      | Some (EData _) => P k v /\ exists c, v = Some (EData c)
      | x => v = x
      end
  end.

Fixpoint play (l : list op) (d : dir) : dir :=
  match l with [] => d | o :: r => play r (app_op o d) end.

Fixpoint poss_ops (l : list op) (d : dir) (P : poss) : poss :=
  match l with
  | [] => P
  | o :: r => poss_ops r (app_op o d) (poss_step o d P)
  end.

(** [c] may be found after a crash (or at the end) of a run which started with [d] on disk and
    performed (at most) [ops] *)
Definition crash (d : dir) (ops : list op) (c : dir) : Prop :=
  exists p q, ops = p ++ q /\ NoDup (map fst c) /\ forall k, poss_ops p d (on_disk d) k (assoc k c).

(** ** Repositories written by rauc

    [good n g c]: the content [c] is the complete artifact [n] with digest [g]. *)
Section repo.
Variable good : string -> string -> content -> Prop.

Record repo_ok (d : dir) : Prop := mk_repo_ok {
  (* entry names are unique *)
  ro_nodup : NoDup (map fst d);
  (* artifact entries are data and carry a valid name *)
  ro_art : forall n g, hex_digest g -> assoc (apath n g) d <> None ->
             valid_name n /\ exists c, assoc (apath n g) d = Some (EData c);
  (* temporary artifact entries are not symbolic links *)
  ro_tmp : forall n g t, assoc (atmp n g) d <> Some (ELink t);
  (* a link to an artifact has the name of the artifact, or is a left-over temporary link *)
  ro_link : forall l n g, visible l -> hex_digest g -> points d l n g -> l = n \/ l = stale_link n;
  (* every artifact link points to a complete artifact *)
  ro_good : forall n g, valid_name n -> hex_digest g -> points d n n g ->
             exists c, assoc (apath n g) d = Some (EData c) /\ good n g c
}.

(** the images of a bundle are complete artifacts with proper names *)
Definition image_good (i : image) : Prop :=
  valid_name (i_name i) /\ hex_digest (i_digest i) /\ good (i_name i) (i_digest i) (i_content i).

(** an artifact someone has open is complete *)
Definition open_good (w : world) (d : dir) : Prop :=
  forall n g c, w_open w (apath n g) = Some true -> assoc (apath n g) d = Some (EData c) -> good n g c.

(** one artifact installation (any images, any system call failures, any iteration order of
    the hash tables), cut off anywhere by a crash or completed *)
Inductive after_run (d : dir) : dir -> Prop :=
| after_run_intro : forall w1 w2 ord imgs env r s c,
    (forall T, Permutation (ord T) T) ->
    Forall image_good imgs -> open_good w1 d ->
    install_run w1 w2 ord imgs (start d env) = (r, s) ->
    crash d (s_ops s) c ->
    after_run d c.

(** any number of installations, each interrupted or completed *)
Inductive history (d : dir) : dir -> Prop :=
| hist_start : history d d
| hist_run : forall c c', history d c -> after_run c c' -> history d c'.
End repo.
