(** Property theorems for the D-Bus service (C50). *)
From Verif Require Import Base Service ServiceSpec ServiceProofs.

Theorem C50_protocol : forall h, protocol (v_out (srun h)).
Proof. exact service_protocol_ok. Qed.
Print Assumptions C50_protocol.
Theorem C50_refuses : forall h id, v_dead (srun h) = false -> in_progress (v_out (srun h)) id ->
  (forall u, v_out (srun (h ++ [EInstall u])) = v_out (srun h) ++ [ORefused None]) /\
  (forall m ok, v_out (srun (h ++ [EMethod m ok])) = v_out (srun h) ++ [ORefused (Some m)]) /\
  (forall i, v_out (srun (h ++ [EPoll i])) = v_out (srun h)).
Proof. exact service_refuses_ok. Qed.
Print Assumptions C50_refuses.
Theorem C50_serves : forall h, v_dead (srun h) = false -> idle (v_out (srun h)) ->
  (exists id, v_out (srun (h ++ [EInstall false])) = v_out (srun h) ++ [OAccepted ByClient id]) /\
  (forall m ok, v_out (srun (h ++ [EMethod m ok])) = v_out (srun h) ++ [OWork m ok]) /\
  (good_after (v_out (srun h)) = true -> v_out (srun (h ++ [EPoll false])) = v_out (srun h) ++ [OPoll]).
Proof. exact service_serves_ok. Qed.
Print Assumptions C50_serves.
Theorem C50_no_abort : forall h, ~ In EAuto h -> v_dead (srun h) = false.
Proof. exact service_no_abort_ok. Qed.
Print Assumptions C50_no_abort.
Theorem C50_completes : forall h, ~ In EAuto h -> (forall id, started (v_out (srun h)) id -> ended (v_out (srun h)) id) ->
  exists n, idle (v_out (srun (h ++ repeat ELoop n))).
Proof. exact service_completes_ok. Qed.
Print Assumptions C50_completes.
Theorem C50_operation_only : forall h, v_dead (srun h) = false -> v_installing (srun h) = true -> exists id, in_progress (v_out (srun h)) id.
Proof. exact service_operation_ok. Qed.
Print Assumptions C50_operation_only.
Theorem C50_operation_set : forall h a o id b, v_out (srun h) = a ++ OAccepted o id :: b -> in_progress (v_out (srun h)) id ->
  o <> ByAuto -> ~ In (ORefused None) b -> v_installing (srun h) = true.
Proof. exact service_operation_set_ok. Qed.
Print Assumptions C50_operation_set.
Theorem C50_operation_refuted : exists h id, ~ In EAuto h /\ in_progress (v_out (srun h)) id /\ v_installing (srun h) = false /\
  (forall pct, v_out (srun (h ++ [EThread id (TProgress pct)])) = v_out (srun h)).
Proof. exact service_operation_refuted. Qed.
Print Assumptions C50_operation_refuted.
Theorem C50_auto_operation_refuted : exists h id, in_progress (v_out (srun h)) id /\ v_installing (srun h) = false /\ ~ In (ORefused None) (v_out (srun h)).
Proof. exact service_auto_operation_refuted. Qed.
Print Assumptions C50_auto_operation_refuted.
Theorem C50_auto_abort_refuted : exists h id, in_progress (v_out (srun h)) id /\ v_dead (srun h) = false /\ v_dead (srun (h ++ [EAuto])) = true.
Proof. exact service_auto_abort_refuted. Qed.
Print Assumptions C50_auto_abort_refuted.

(** non-vacuity: a client installs, a second client and a mark request are refused, the installation fails, the booted slot
    is marked good and polling installs *)
Definition ex_schedule : list sev :=
  [EInstall true; EInstall false; EThread 0 (TProgress 20); EMethod (MMark true true) true; EThread 0 (TMessage "hello");
   EThread 0 (TEnd false "broken"); ELoop; ELoop; EInstall false; ELoop; ELoop;
   EPoll true; EMethod (MMark true true) true; EPoll true; EThread 1 (TProgress 50); EPoll true; EThread 1 (TEnd true ""); ELoop].
Example ex_service : v_dead (srun ex_schedule) = false /\ ~ In EAuto ex_schedule /\
  v_out (srun ex_schedule) =
    [ORefused None; OAccepted ByClient 0; OProgress 0 20; ORefused (Some (MMark true true)); OThreadEnd 0 false;
     OMessage 0 "hello"; OMessage 0 "broken"; OMessage 0 "finished"; ORefused None; OCompleted 0 false;
     OWork (MMark true true) true; OPoll; OAccepted ByPolling 1; OProgress 1 50; OThreadEnd 1 true; OCompleted 1 true].
Proof.
  split; [vm_compute; reflexivity|]. split; [|vm_compute; reflexivity].
  intros H. repeat (destruct H as [H|H]; [discriminate|]). exact H.
Qed.
Example ex_service_progress : in_progress (v_out (srun (firstn 9 ex_schedule))) 0 /\ idle (v_out (srun ex_schedule)).
Proof.
  split.
  - assert (v_out (srun (firstn 9 ex_schedule)) =
      [ORefused None; OAccepted ByClient 0; OProgress 0 20; ORefused (Some (MMark true true)); OThreadEnd 0 false;
       OMessage 0 "hello"; OMessage 0 "broken"; OMessage 0 "finished"; ORefused None]) as -> by (vm_compute; reflexivity).
    split; [exists ByClient; right; left; reflexivity|]. intros [ok H].
    repeat (destruct H as [H|H]; [discriminate|]). exact H.
  - destruct ex_service as (_ & _ & ->). intros id [[o H] N]. apply N.
    assert (K : id = 0 \/ id = 1).
    { repeat (destruct H as [H|H]; [first [discriminate | injection H as _ <-; auto]|]). destruct H. }
    destruct K as [->| ->]; [exists false | exists true]; repeat (first [left; reflexivity | right]).
Qed.
