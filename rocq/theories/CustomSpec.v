(** Vocabulary of C66: the interface of docs/integration.rst, "Custom bootloader backend interface". *)
From Verif Require Import Base Slot Mark ContextSpec Custom.

(** the answer [v]: printed on stdout, perhaps with white space around it, with exit code 0 *)
Definition answers (o : outcome) (v : string) : Prop := exists out, o = Ran out (Some 0) /\ text_only out /\ trimmed out v.
Definition failed (o : outcome) : Prop := forall out, o <> Ran out (Some 0).

(** What the boot loader has: a primary bootname and a state for every bootname *)
Record bootview := mkView { bv_primary : string; bv_good : string -> bool }.

(** A program which does what the documentation demands.  It may fail at any time with another exit code; then
    it has changed nothing. *)
Record conforms {W} (run : program W) (view : W -> bootview) : Prop := mkConforms {
  cf_get_primary : forall w w' o, run w ["get-primary"] = (w', o) -> view w' = view w /\ (answers o (bv_primary (view w)) \/ failed o);
  cf_get_state : forall w w' o b, run w ["get-state"; b] = (w', o) ->
    view w' = view w /\ (answers o (if bv_good (view w) b then "good" else "bad") \/ failed o);
  cf_set_primary : forall w w' o b, run w ["set-primary"; b] = (w', o) ->
    ((exists out, o = Ran out (Some 0)) /\ bv_primary (view w') = b /\ bv_good (view w') = bv_good (view w)) \/ (failed o /\ view w' = view w);
  cf_set_state : forall w w' o b g, run w ["set-state"; b; if g : bool then "good" else "bad"] = (w', o) ->
    ((exists out, o = Ran out (Some 0)) /\ bv_primary (view w') = bv_primary (view w) /\
       forall x, bv_good (view w') x = if String.eqb x b then g else bv_good (view w) x) \/
    (failed o /\ view w' = view w)
}.

(** the last request of a history that concerned the primary slot, or the state of [b], and was successful *)
Fixpoint last_primary (h : list (bootop * bool)) : option string :=
  match h with
  | [] => None
  | (OpPrimary s, true) :: r => match last_primary r with Some x => Some x | None => sl_bootname s end
  | _ :: r => last_primary r
  end.
Fixpoint last_state (b : string) (h : list (bootop * bool)) : option bool :=
  match h with
  | [] => None
  | (OpState s g, true) :: r =>
      match last_state b r with
      | Some x => Some x
      | None => match sl_bootname s with Some n => if String.eqb b n then Some g else None | None => None end
      end
  | _ :: r => last_state b r
  end.

Definition bootnames_unique (slots : list slot) : Prop :=
  forall s t b, In s slots -> In t slots -> sl_bootname s = Some b -> sl_bootname t = Some b -> s = t.
