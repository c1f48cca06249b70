(** Vocabulary for the target selection properties (C01-C03, C45). *)
From Verif Require Import Base Slot Image Handlers Install.

(** The configuration after loading: parents are existing top-level slots (C29). *)
Definition wf_parents (slots : list slot) : Prop :=
  forall s p, In s slots -> sl_parent s = Some p ->
    exists r, In r slots /\ sl_name r = p /\ sl_parent r = None.

(** [r] is the top-level slot of [s]'s group *)
Definition group_root (slots : list slot) (s r : slot) : Prop :=
  In r slots /\ sl_parent r = None /\
  (sl_parent s = None /\ r = s \/ sl_parent s = Some (sl_name r)).

(** The image a system of variant [v] uses for class [c]: the first with exactly
    this variant, else the first without variant. *)
Definition has_variant (v : option string) (i : image) : bool :=
  match im_variant i, v with
  | Some a, Some b => String.eqb a b
  | _, _ => false
  end.
Definition no_variant (i : image) : bool := match im_variant i with None => true | Some _ => false end.
Definition image_for (v : option string) (imgs : list image) (c : string) : option image :=
  match find (fun i => String.eqb (im_class i) c && has_variant v i) imgs with
  | Some i => Some i
  | None => find (fun i => String.eqb (im_class i) c && no_variant i) imgs
  end.

(** slots written by a list of plans *)
Definition written (ps : list plan) : list slot :=
  flat_map (fun p => match pl_target p with TSlot s _ => [s] | TRepo _ => [] end) ps.

Definition is_artifact (i : image) : bool := match im_artifact i with Some _ => true | None => false end.
