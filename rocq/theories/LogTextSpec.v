(** Vocabulary for C74. *)
From Verif Require Import Base LogText.
Open Scope list_scope.

(** what a reader wants to know about an event: *)
Record told := mkTold { to_when : string; to_what : string; to_fields : list (string * string) }.

Definition told_fields (e : event) : list (string * string) :=
  match e with
  | EvStarted t => [("transaction ID", t)]
  | EvDone t _ m => [("bundle hash", match m with Some m => or_empty (mf_hash m) | None => "" end);
                     ("bundle version", match m with Some m => or_empty (mf_version m) | None => "" end); ("transaction ID", t)]
  | EvActive s b h => [("slot", s); ("bootname", or_empty b); ("bundle hash", or_empty h)]
  | EvGood s b | EvBad s b => [("slot", s); ("bootname", or_empty b)]
  | EvMessage _ _ => []
  end%string.
Definition told_of (verbose : bool) (x : string * event) : told := mkTold (fst x) (message (snd x)) (if verbose then told_fields (snd x) else []).

(** 2023-06-14T20:18:07Z *)
Definition timestamp (ts : string) : Prop := String.length ts = 20 /\ no_char "010" ts = true /\ has_prefix " " ts = false.

(** nothing in the event has a line break *)
Definition one_line (e : event) : Prop := no_char "010" (message e) = true /\ forall l v, In (l, v) (told_fields e) -> no_char "010" v = true.

Definition plain_log (l : list (string * event)) : Prop := forall ts e, In (ts, e) l -> timestamp ts /\ one_line e.

(** the first 8 characters of a transaction ID *)
Definition short_of (txn id : string) : Prop := (String.length txn <= 8 /\ id = txn) \/ (String.length id = 8 /\ exists r, txn = (id ++ r)%string).
(** what a line of the log says about an event *)
Definition line_says (e : event) (text : string) : Prop :=
  match e with
  | EvStarted t => exists id, short_of t id /\ text = ("Installation " ++ id ++ " started")%string
  | EvDone t x _ => exists id, short_of t id /\
      text = ("Installation " ++ id ++ match x with Succeeded => " succeeded" | Rejected why => " rejected: " ++ why | FailedWith why => " failed: " ++ why end)%string
  | EvActive s _ _ => text = ("Marked slot " ++ s ++ " as active")%string
  | EvGood s _ => text = ("Marked slot " ++ s ++ " as good")%string
  | EvBad s _ => text = ("Marked slot " ++ s ++ " as bad")%string
  | EvMessage _ x => text = x
  end.
