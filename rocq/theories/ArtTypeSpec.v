(** Vocabulary of C86. *)
From Verif Require Import Base ArtType.
Open Scope string_scope.

Definition bare (s : string) : Prop := no_char "/" s = true.

(** the bundle mounted at [dir] has what bundle creation makes of an artifact image with archive or file [c] and
    the conversions [methods] (None: no "convert"): each output next to each other, the source only if it is kept *)
Definition output_name (f m : string) : string := if String.eqb m "tar-extract" then (f ++ ".extracted")%string else if String.eqb m "composefs" then (f ++ ".cfs")%string else f.
Record made (w : world) (b : string -> option node) (dir f c : string) (methods : option (list string)) : Prop := {
  md_name : bare f /\ f <> "" /\ has_prefix "/" dir = true;
  md_methods : forall l, methods = Some l -> l <> [] /\ forall m, In m l -> In m ["tar-extract"; "keep"; "composefs"];
  md_source : b (dir ++ "/" ++ f) = (match methods with None => Some (NFile c) | Some l => if existsb (String.eqb "keep") l then Some (NFile c) else None end);
  md_tree : forall l, methods = Some l -> In "tar-extract" l -> exists t, w_untar w c = Some t /\ b (dir ++ "/" ++ f ++ ".extracted") = Some t;
  md_cfs : forall l, methods = Some l -> In "composefs" l -> exists d, b (dir ++ "/" ++ f ++ ".cfs") = Some d }.
(** the image in the manifest of this bundle *)
Definition image_of (f : string) (methods : option (list string)) : aimage :=
  mkA f methods (option_map (map (output_name f)) methods).
Definition method (methods : option (list string)) (m : string) : Prop := exists l, methods = Some l /\ In m l.

(** what the artifact is to be *)
Definition wanted (k : kind) (w : world) (b : string -> option node) (dir f c : string) : option node :=
  match k with
  | Files => Some (NFile c)
  | Trees => w_untar w c
  | Composefs => match b (dir ++ "/" ++ f ++ ".cfs") with Some d => w_mkcfs w d | None => None end
  | Other => None
  end.
(** the types a bundle's artifact fits *)
Definition fits (k : kind) (methods : option (list string)) : Prop :=
  match k with
  | Files => methods = None \/ method methods "keep"
  | Trees => methods = None \/ method methods "keep" \/ method methods "tar-extract"
  | Composefs => method methods "composefs"
  | Other => False
  end.
(** every system call works *)
Definition all_work (w : world) : Prop :=
  w_open w = true /\ w_create w = true /\ w_copy w = true /\ w_fsync w = true /\ w_close w = true /\ w_mkdir w = true /\ w_tar w = true /\
  w_cp w = true /\ w_cfs w = true /\ w_diropen w = true /\ w_syncfs w = true /\ w_rename w = true /\ w_dirsync w = true.
