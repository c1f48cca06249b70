(** C83 LastError, Progress and Operation as a D-Bus client sees them *)
From Verif Require Import Base Signals SignalsSpec SignalsProofs.
Open Scope list_scope.

(** When Completed arrives, a client that follows the property changes knows the message of the error - of this
    installation, and none after a success - in every interleaving of the threads. *)
Theorem C83_completed : forall h a r c, s_wire (run h) = a ++ WCompleted r :: c -> seen_err a = message r.
Proof. exact c83_completed_ok. Qed.
Print Assumptions C83_completed.
(** The property itself, between installations and during one. *)
Theorem C83_property : forall h, s_busy (run h) = false ->
  p_err (s_props (run h)) = match last_result (s_wire (run h)) with Some r => message r | None => ""%string end.
Proof. exact c83_property_ok. Qed.
Print Assumptions C83_property.
Theorem C83_working : forall h b, s_thread (run h) = Some (PWork b) -> p_err (s_props (run h)) = ""%string.
Proof. exact c83_working_ok. Qed.
Print Assumptions C83_working.
(** When the main loop has nothing to do, the client knows the current values. *)
Theorem C83_quiet : forall h, s_queue (run h) = [] ->
  seen_op (s_wire (run h)) = p_op (s_props (run h)) /\ seen_err (s_wire (run h)) = p_err (s_props (run h)) /\ seen_prog (s_wire (run h)) = p_prog (s_props (run h)).
Proof. exact c83_quiet_ok. Qed.
Print Assumptions C83_quiet.
(** A progress report is known to the client at once, as long as Operation is "installing". *)
Theorem C83_progress : forall h b g x, s_thread (run h) = Some (PWork b) -> p_op (s_props (run h)) = true ->
  seen_prog (s_wire (run (h ++ [EThread (TProgress g); EThread x]))) = g.
Proof. exact c83_progress_ok. Qed.
Print Assumptions C83_progress.
(** rauc install prints the message before it ends, unless some request was refused during the installation ... *)
Theorem C83_printed : forall h a m c, s_wire (run h) = a ++ WCompleted (Some m) :: c -> m <> ""%string -> ~ In WRefused (segment a) -> printed m (segment a).
Proof. exact c83_printed_ok. Qed.
Print Assumptions C83_printed.
(** ... in that case it may never be printed. *)
Theorem C83_printed_refuted : exists h a m c, s_wire (run h) = a ++ WCompleted (Some m) :: c /\ m <> ""%string /\ forall m', ~ printed m' (a ++ c).
Proof. exact c83_printed_refuted. Qed.
Print Assumptions C83_printed_refuted.

Definition ex_h : list ev :=
  [EInstall true; ELoop; EInstall false; EThread (TEnd None); EThread (TProgress (0, "Installing")); EThread (TEnd None); EThread (TProgress (20, "Checking")); EThread (TEnd None);
   EThread (TEnd (Some "no signature")); EThread (TEnd None); ELoop; ELoop; ELoop; ELoop; ELoop; ELoop;
   EPoll; EThread (TEnd None); EThread (TProgress (0, "Installing")); EThread (TEnd None); EThread (TEnd None); EThread (TEnd None); ELoop; ELoop; ELoop; ELoop; ELoop; ELoop; ELoop].
Example ex_run : s_wire (run ex_h) =
  [WRefused; WChanged (Some true) None None; WStarted; WChanged None None (Some (0, "Installing")); WChanged None None (Some (20, "Checking"));
   WChanged None (Some "no signature") None; WCompleted (Some "no signature"); WChanged (Some false) None None;
   WStarted; WChanged (Some true) (Some "") (Some (0, "Installing")); WCompleted None; WChanged (Some false) None None] /\
  s_busy (run ex_h) = false /\ s_queue (run ex_h) = [] /\ p_err (s_props (run ex_h)) = "".
Proof. vm_compute. repeat split; reflexivity. Qed.
Example ex_working : s_thread (run (firstn 6 ex_h)) = Some (PWork true) /\ p_op (s_props (run (firstn 6 ex_h))) = true.
Proof. vm_compute. split; reflexivity. Qed.
Example ex_segment : let a := firstn 6 (s_wire (run ex_h)) in s_wire (run ex_h) = a ++ WCompleted (Some "no signature") :: skipn 7 (s_wire (run ex_h)) /\ ~ In WRefused (segment a) /\ printed "no signature" (segment a).
Proof. vm_compute. split; [reflexivity|]. split; intuition discriminate. Qed.
