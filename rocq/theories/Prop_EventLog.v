(** Property theorems for the event log (C25). *)
From Verif Require Import Base EventLog EventLogSpec EventLogProofs.

(** one event: order kept, only the oldest file dropped, sizes respected *)
Theorem C25_write : forall lg fs out o lg' fs' st, lg_broken lg = false -> log_inv lg fs ->
  write_entry lg fs out o = (lg', fs', st) -> write_spec lg fs out lg' fs' st.
Proof. exact c25_write_ok. Qed.
Print Assumptions C25_write.
(** every history of service starts, events, I/O failures and crashes *)
Theorem C25_history : forall events maxsize maxfiles fs0 h, 1 <= maxfiles -> fs0 (Rot 0) = None ->
  let cfg := fresh_logger events maxsize maxfiles in
  let fs := snd (lrun cfg None fs0 h) in
  exists dropped added,
    view (top maxfiles) fs0 ++ added = dropped ++ view (top maxfiles) fs /\
    contributed cfg None fs0 h added /\
    (maxsize = 0%N -> dropped = []) /\
    (forall k, top maxfiles < k -> fs (Rot k) = fs0 (Rot k)).
Proof. exact c25_history_ok. Qed.
Print Assumptions C25_history.
Theorem C25_files : forall events maxsize maxfiles fs0 h, 2 <= maxfiles -> (forall k, fs0 (Rot k) = None) ->
  forall k, maxfiles <= k -> snd (lrun (fresh_logger events maxsize maxfiles) None fs0 h) (Rot k) = None.
Proof. exact c25_files_ok. Qed.
Print Assumptions C25_files.
Theorem C25_one_file_refuted : exists fs0 h, (forall f, fs0 f = None) /\
  let fs := snd (lrun (fresh_logger ["all"] 8 1) None fs0 h) in
  fs Cur = Some ["event2"] /\ fs (Rot 1) = Some ["event1"].
Proof. exact c25_one_file_refuted. Qed.
Print Assumptions C25_one_file_refuted.

(** non-vacuity: a log with three files of two short entries each, the oldest being dropped *)
Definition ex_ev (s : string) : levent := LEvent "rauc-event" "install" s [].
Definition ex_log_hist : list levent :=
  [LStart []; ex_ev "e1"; ex_ev "e2"; ex_ev "e3"; ex_ev "e4"; LEvent "other" "install" "xx" []; LEvent "rauc-event" "boot" "yy" [];
   LStart []; ex_ev "e5"; ex_ev "e6"; ex_ev "e7"].
Example ex_log_run :
  let fs := snd (lrun (fresh_logger ["mark"; "install"] 4 3) None (fun _ => None) ex_log_hist) in
  fs Cur = Some ["e7"] /\ fs (Rot 1) = Some ["e5"; "e6"] /\ fs (Rot 2) = Some ["e3"; "e4"] /\ fs (Rot 3) = None /\
  view (top 3) fs = ["e3"; "e4"; "e5"; "e6"; "e7"].
Proof. repeat split; vm_compute; reflexivity. Qed.
(** a crash in the middle of a rotation *)
Example ex_log_crash :
  let h := [LStart []; ex_ev "e1"; ex_ev "e2"; ex_ev "e3"; ex_ev "e4"; LEvent "rauc-event" "install" "e5" [OGood; OGood; OGood; OCrash 0];
            LStart []; ex_ev "e6"; LEvent "rauc-event" "install" "e7" [OFail 1]; ex_ev "e8"] in
  let r := lrun (fresh_logger ["all"] 4 3) None (fun _ => None) h in
  view (top 3) (snd r) = ["e1"; "e2"; "e3"; "e4"; "e6"; "e"] /\ exists lg, fst r = Some lg /\ lg_broken lg = true.
Proof. split; [vm_compute; reflexivity|]. eexists. split; vm_compute; reflexivity. Qed.
Example ex_log_inv : log_inv (mkLogger ["all"] 4 3 true 2 false) (fun f => match f with Cur => Some ["e1"] | _ => None end).
Proof. split; [cbn; lia|]. split; [reflexivity|]. intros _. split; [reflexivity|]. eexists. split; reflexivity. Qed.
