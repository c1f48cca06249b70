(** Vocabulary for C14. *)
From Verif Require Import Base Slot Install Mark.

(** the slots a user means by an identifier *)
Definition booted (st : states) (slots : list slot) (s : slot) : Prop :=
  In s slots /\ st (sl_name s) = ST_BOOTED.

Definition meant (st : states) (slots : list slot) (id : string) (s : slot) : Prop :=
  (id = "booted" /\ booted st slots s) \/
  (id = "other" /\ In s slots /\ sl_parent s = None /\ sl_bootname s <> None /\
     exists b, booted st slots b /\ sl_class s = sl_class b /\ sl_name s <> sl_name b) \/
  (id <> "booted" /\ id <> "other" /\ In s slots /\ sl_name s = id /\ sl_bootname s <> None).

(** only one slot can be booted (C01_slot_states proves this of determine_slot_states) *)
Definition one_booted (st : states) (slots : list slot) : Prop :=
  forall a b, booted st slots a -> booted st slots b -> a = b.

Definition op_slot (o : bootop) : slot := match o with OpState s _ => s | OpPrimary s => s end.
