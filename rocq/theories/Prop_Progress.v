(** Property theorems for progress reporting (C28). *)
From Verif Require Import Base Progress ProgressSpec ProgressProofs.
Open Scope Q_scope.

Theorem C28_progress : forall ops open,
  nested [] ops = Some open ->
  exists stack reps, do_ops [] ops = Ok (stack, reps) /\
    map s_name stack = map o_name open /\
    monotone 0 reps /\
    Forall (fun r => (0 <= r_pct r <= 100)%Z /\
                     (root_begin r -> r_pct r = 0%Z) /\
                     (r_depth r = 1%nat -> r_finished r = true -> r_pct r = 100%Z)) reps.
Proof. exact c28_ok. Qed.
Print Assumptions C28_progress.
Theorem C28_explicit_refuted :
  exists ops stack reps, do_ops [] ops = Ok (stack, reps) /\ map r_pct reps = [0; 0; 0; 50; 49]%Z /\ ~ monotone 0 reps.
Proof. exact c28_explicit_refuted. Qed.
Print Assumptions C28_explicit_refuted.

(** non-vacuity: an installation-like run with substeps, weights and explicit percentages,
    followed by a failing one *)
Definition ex_run : list pop :=
  [OpBegin "Installing" 5 1;
     OpBegin "Determining slot states" 0 1; OpEnd "Determining slot states" true;
     OpBegin "Checking bundle" 2 1;
       OpBegin "Verifying signature" 0 1; OpEnd "Verifying signature" true;
       OpBegin "Checking contents" 0 1; OpSet "Checking contents" 30; OpSet "Checking contents" 10; OpInc "Checking contents"; OpEnd "Checking contents" true;
     OpEnd "Checking bundle" true;
     OpBegin "Updating slots" 3 3;
       OpBegin "Copying image" 0 2; OpSet "Copying image" 50; OpSet "Copying image" 100; OpEnd "Copying image" true;
       OpBegin "Copying image" 0 1; OpEnd "Copying image" true;
     OpEnd "Updating slots" true;
   OpEnd "Installing" true;
   OpBegin "Installing" 3 1; OpBegin "Checking bundle" 2 1; OpEnd "Checking bundle" false; OpEnd "Installing" false].
Example ex_nested : nested [] ex_run = Some [].
Proof. reflexivity. Qed.
Example ex_reports : exists st reps, do_ops [] ex_run = Ok (st, reps) /\
  map r_pct reps = [0; 0; 20; 20; 20; 30; 30; 33; 33; 40; 40; 40; 40; 60; 80; 80; 99; 99; 100; 0; 0; 33; 100]%Z.
Proof. eexists _, _. split; vm_compute; reflexivity. Qed.
