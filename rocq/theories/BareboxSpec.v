(** The barebox bootchooser, independent of the rauc code: among the targets
    with remaining attempts it boots the one with the highest priority;
    priority 0 disables a target. *)
From Verif Require Import Base Slot Barebox.

Definition prio_of (st : bbstate) (b : string) : N :=
  match st ("bootstate." ++ b ++ ".priority")%string with Some v => v | None => 0 end.
Definition att_of (st : bbstate) (b : string) : N :=
  match st ("bootstate." ++ b ++ ".remaining_attempts")%string with Some v => v | None => 0 end.

Definition bb_ready (st : bbstate) (b : string) : Prop := (0 < prio_of st b)%N /\ (0 < att_of st b)%N.

(** [b] is the unique boot target among the names in [targets] *)
Definition bb_boots (st : bbstate) (targets : list string) (b : string) : Prop :=
  In b targets /\ bb_ready st b /\
  forall c, In c targets -> c <> b -> bb_ready st c -> (prio_of st c < prio_of st b)%N.

(** barebox variables used here are uint32 *)
Definition bb_wf (st : bbstate) : Prop := forall k v, st k = Some v -> (v < 2 ^ 32)%N.

Definition targets (slots : list slot) : list string :=
  flat_map (fun s => match sl_bootname s with Some b => [b] | None => [] end) slots.
