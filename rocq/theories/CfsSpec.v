(** Vocabulary of C68. *)
From Verif Require Import Base Cfs.

(** regular files with a payload anywhere below the root of an image *)
Inductive file_below : node -> string -> Prop :=
| FB_here : forall reg pl cs p gs, In (Node true (Some p) gs) cs -> file_below (Node reg pl cs) p
| FB_deep : forall reg pl cs c p, In c cs -> file_below c p -> file_below (Node reg pl cs) p.

(** two hexadecimal digits, a slash, 62 hexadecimal digits *)
Definition object_name (s : string) : Prop :=
  exists a b, s = (a ++ "/" ++ b)%string /\ String.length a = 2 /\ String.length b = 62 /\ all_chars xdigit a = true /\ all_chars xdigit b = true.

(** ** What may be on the disk: after syncfs the current state; after that, for every item independently, any of the
    states it went through since.  fsync of the directory makes its entries durable, not the data below them. *)
Definition poss := item -> option string -> Prop.
Definition on_disk (d : disk) : poss := fun k v => v = get k d.
Definition poss_step (o : op) (d : disk) (P : poss) : poss :=
  match o with
  | OData k x => fun j v => P j v \/ (j = k /\ v = Some x)
  | ORename a b => fun j v => P j v \/ (j = a /\ v = None) \/ (j = b /\ P a v /\ v <> None)
  | ORemove k => fun j v => P j v \/ (j = k /\ v = None)
  | OSyncfs => on_disk d
  | OSyncDir => fun j v =>
      match j with
      | KObj _ => P j v
      | KLink _ => v = get j d
      | _ => match get j d with Some _ => P j v /\ v <> None | None => v = None end
      end
  end.
Fixpoint poss_ops (l : list op) (d : disk) (P : poss) : poss :=
  match l with [] => P | o :: r => poss_ops r (app_op o d) (poss_step o d P) end.
(** [c] may be found after a crash, or at the end, of a run that started with [d] and performed (at most) [ops] *)
Definition crash (d : disk) (ops : list op) (c : disk) : Prop :=
  exists p q, ops = p ++ q /\ forall k, poss_ops p d (on_disk d) k (get k c).
(** no item twice *)
Definition disk_ok (d : disk) : Prop := NoDup (map fst d).

(** ** Complete artifacts.  [imgok n g img]: this is the image of artifact [n] with digest [g]; [right o c]: [c] is the
    content an object of this name must have. *)
Definition complete (load : string -> option node) (imgok : string -> string -> string -> Prop) (right : string -> string -> Prop)
  (d : disk) (n g : string) : Prop :=
  exists img objs, get (KArt n g) d = Some img /\ imgok n g img /\ objects_of load img = Ok objs /\
    forall o, In o objs -> exists c, get (KObj o) d = Some c /\ right o c.
(** every link points to a complete artifact *)
Definition links_complete load imgok right (d : disk) : Prop := forall n g, get (KLink n) d = Some g -> complete load imgok right d n g.

(** what the bundle has: proper images and objects (maybe not all that are needed) *)
Definition bundle_good (imgok : string -> string -> string -> Prop) (right : string -> string -> Prop) (b : bundle) (imgs : list image) : Prop :=
  Forall (fun i => imgok (i_name i) (i_digest i) (i_img i)) imgs /\ forall o c, lookup b o = Some c -> right o c.
(** whatever of [P] is on the disk, the artifact is complete *)
Definition surely_complete load imgok right (P : poss) (n g : string) : Prop :=
  exists img objs, (forall v, P (KArt n g) v -> v = Some img) /\ imgok n g img /\ objects_of load img = Ok objs /\
    forall o, In o objs -> forall v, P (KObj o) v -> exists c, v = Some c /\ right o c.
(** an artifact someone has open is complete on the disk *)
Definition open_good load imgok right (w : world) (d : disk) (P : poss) : Prop :=
  forall n g, w_open w n g = Some true -> get (KArt n g) d <> None -> surely_complete load imgok right P n g.
(** the links on the disk are the ones that are visible *)
Definition links_synced (d : disk) (P : poss) : Prop := forall n v, P (KLink n) v -> v = get (KLink n) d.

(** Installations between a boot with the contents [d] and the next, whatever fails in them: the operations so far and
    what is visible now.  An installation that was interrupted by an error while links were changed, with the links not
    on the disk yet, must not be followed by another one (see c68_unsynced_refuted). *)
Inductive session load imgok right (d : disk) : list op -> disk -> Prop :=
| S_boot : session load imgok right d [] d
| S_run ops m w1 w2 b imgs env r s : session load imgok right d ops m ->
    links_synced m (poss_ops ops d (on_disk d)) -> open_good load imgok right w1 m (poss_ops ops d (on_disk d)) -> bundle_good imgok right b imgs ->
    install_run load w1 w2 b imgs (mkst m ops env) = (r, s) -> session load imgok right d (s_ops s) (s_dir s).
(** boots, ended by a crash anywhere or not *)
Inductive history load imgok right (d : disk) : disk -> Prop :=
| H_start : history load imgok right d d
| H_boot c ops m c' : history load imgok right d c -> session load imgok right c ops m -> disk_ok c' -> crash c ops c' -> history load imgok right d c'.

(** an artifact of the repository needs this object *)
Definition needed load (d : disk) (o : string) : Prop :=
  exists n g img objs, get (KArt n g) d = Some img /\ objects_of load img = Ok objs /\ In o objs.

(** the last image of a name *)
Definition last_image (imgs : list image) (n : string) : option image := find (fun i => String.eqb (i_name i) n) (rev imgs).
