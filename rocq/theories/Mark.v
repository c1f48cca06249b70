(** Model of src/mark.c: resolution of slot identifiers and the mark commands. *)
From Verif Require Import Base Slot Install.

(** Calls into the boot chooser (src/bootchooser.c: r_boot_set_state, r_boot_set_primary). *)
Inductive bootop :=
| OpState (s : slot) (good : bool)
| OpPrimary (s : slot).

(** mark.c:18-23: the first slot (in table order) with state ST_BOOTED *)
Definition booted_slot (st : states) (slots : list slot) : option slot :=
  find (fun s => state_eqb (st (sl_name s)) ST_BOOTED) slots.

(** mark.c:39: [slot->sclass == booted->sclass] compares interned strings
    (config_file.c uses g_intern_string for sclass), i.e. string equality. *)
Definition is_other (booted s : slot) : bool :=
  String.eqb (sl_class s) (sl_class booted)
  && (match sl_parent s with None => true | Some _ => false end)
  && (match sl_bootname s with Some _ => true | None => false end)
  && negb (same_slot s booted).

(** mark.c:9-87 get_slots_by_identifier *)
Definition get_slots_by_identifier (st : states) (slots : list slot) (id : string) : res (list slot) :=
  if String.eqb id "booted" then
    match booted_slot st slots with Some b => Ok [b] | None => Err end          (* :25-33 *)
  else if String.eqb id "other" then                                            (* :34-54 *)
    match booted_slot st slots with
    | Some b => match filter (is_other b) slots with
                | [] => Err
                | l => Ok l
                end
    | None => Err
    end
  else                                                                          (* :55-84 *)
    if Nat.eqb (List.length (g_strsplit "." id)) 2 then
      match find (fun s => String.eqb (sl_name s) id) slots with
      | None => Err
      | Some s => match sl_bootname s with None => Err | Some _ => Ok [s] end
      end
    else Err.

(** Oracle for the boot chooser calls: whether the call succeeds may depend on
    all calls made before. *)
Definition boot_oracle := list bootop -> bootop -> bool.

(** mark.c:246-252: mark all slots bad, stop at the first failure; [tr] = calls made so far *)
Fixpoint mark_bad_loop (ok : boot_oracle) (tr : list bootop) (l : list slot) : bool * list bootop :=
  match l with
  | [] => (true, tr)
  | s :: r => let op := OpState s false in
              if ok tr op then mark_bad_loop ok (tr ++ [op]) r else (false, tr ++ [op])
  end.

(** mark.c:202-286 mark_run for the state "bad" *)
Definition mark_run_bad (ok : boot_oracle) (st : states) (slots : list slot) (id : string) (tr : list bootop)
  : res (list slot) * list bootop :=
  match get_slots_by_identifier st slots id with
  | Ok l => let '(b, tr') := mark_bad_loop ok tr l in ((if b then Ok l else Err), tr')
  | Err => (Err, tr)
  | Abort => (Abort, tr)
  end.

(** mark.c:202-286 mark_run.  The result carries the slots reported in slot_name.
    r_mark_good/bad/active (mark.c:131-200) are one boot chooser call each; the
    slot status update of r_mark_active is in InstallRun.v.
    [g_list_first (slots)->data] on an empty list is a NULL dereference: Abort. *)
Definition mark_run (ok : boot_oracle) (prevent_late_fallback : bool) (st : states) (slots : list slot)
  (state id : string) : res (list slot) * list bootop :=
  if String.eqb state "bad" then mark_run_bad ok st slots id []
  else
  match get_slots_by_identifier st slots id with
  | Err => (Err, [])
  | Abort => (Abort, [])
  | Ok l =>
      if String.eqb state "good" then
        if Nat.ltb 1 (List.length l) then (Err, [])                             (* :222-225 *)
        else match l with
        | [] => (Abort, [])
        | s :: _ =>
            let op := OpState s true in
            if negb (ok [] op) then (Err, [op])                                 (* :228-231 *)
            else if prevent_late_fallback && String.eqb id "booted" then        (* :233-242 *)
              match mark_run_bad ok st slots "other" [op] with
              | (Ok _, tr) => (Ok l, tr)
              | (Err, tr) => (Err, tr)
              | (Abort, tr) => (Abort, tr)
              end
            else (Ok l, [op])
        end
      else if String.eqb state "active" then
        if Nat.ltb 1 (List.length l) then (Err, [])                             (* :254-257 *)
        else match l with
        | [] => (Abort, [])
        | s :: _ =>
            let op := OpPrimary s in
            if ok [] op then (Ok l, [op]) else (Err, [op])
        end
      else (Err, [])                                                            (* :265-268 *)
  end.
