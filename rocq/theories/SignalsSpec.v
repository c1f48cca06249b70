(** Vocabulary of C83. *)
From Verif Require Import Base Signals.
Open Scope list_scope.

(** LastError after an installation: empty after success *)
Definition message (r : option string) : string := match r with Some m => m | None => "" end.
(** what a client that follows the PropertiesChanged signals believes *)
Definition seen_op (w : list wire) : bool := fold_left (fun v x => match x with WChanged (Some b) _ _ => b | _ => v end) w false.
Definition seen_err (w : list wire) : string := fold_left (fun v x => match x with WChanged _ (Some m) _ => m | _ => v end) w ""%string.
Definition seen_prog (w : list wire) : progress := fold_left (fun v x => match x with WChanged _ _ (Some g) => g | _ => v end) w (0, ""%string).
(** the last result that was signalled *)
Definition last_result (w : list wire) : option (option string) := fold_left (fun v x => match x with WCompleted r => Some r | _ => v end) w None.
(** what was sent since the last installation started *)
Definition segment (w : list wire) : list wire := fold_left (fun v x => match x with WStarted => [] | _ => v ++ [x] end) w [].
(** main.c:107-150 on_installer_changed: rauc install prints the error of a signal only if the signal has neither of the other properties *)
Definition printed (m : string) (w : list wire) : Prop := In (WChanged None (Some m) None) w.
