(** What a client of the service can rely on, in terms of the observable events (oldest first). *)
From Verif Require Import Base Service.

Definition started (tr : list sout) (id : nat) : Prop := exists o, In (OAccepted o id) tr.
Definition ended (tr : list sout) (id : nat) : Prop := exists ok, In (OThreadEnd id ok) tr.
Definition completed (tr : list sout) (id : nat) : Prop := exists ok, In (OCompleted id ok) tr.

(** an installation is in progress from its acceptance to its Completed signal *)
Definition in_progress (tr : list sout) (id : nat) : Prop := started tr id /\ ~ completed tr id.
Definition idle (tr : list sout) : Prop := forall id, ~ in_progress tr id.

(** was the booted slot marked good by the last successful request to mark it good or bad? *)
Definition good_after (tr : list sout) : bool :=
  fold_left (fun b e => match e with OWork (MMark g true) true => g | _ => b end) tr false.

(** the event [e] may happen after [tr] *)
Definition allowed (tr : list sout) (e : sout) : Prop :=
  match e with
  | OAccepted _ id => idle tr /\ ~ started tr id
  | OWork _ _ => idle tr
  | OPoll => idle tr /\ good_after tr = true
  | OMessage id _ | OProgress id _ => in_progress tr id
  | OThreadEnd id _ => in_progress tr id /\ ~ ended tr id
  | OCompleted id ok => in_progress tr id /\ In (OThreadEnd id ok) tr
  | ORefused _ => True
  end.

(** every event of a trace was allowed when it happened *)
Definition protocol (tr : list sout) : Prop := forall a e b, tr = a ++ e :: b -> allowed a e.

