(** C73: images handed to programs through a pipe. *)
From Coq Require Import Sorted.
From Verif Require Import Base Splice SpliceProofs.
Open Scope list_scope.

Theorem C73_delivered : forall progress stat_ok close_ok calls image x o p,
  splice_image progress stat_ok close_ok calls image = (x, o, p) ->
  (exists tail, image = o ++ tail) /\ (x = SpliceOk -> o = image).
Proof. exact c73_delivered_ok. Qed.
Print Assumptions C73_delivered.
Theorem C73_percentage : forall stat_ok close_ok calls image x o p,
  splice_image true stat_ok close_ok calls image = (x, o, p) ->
  Forall (fun v => v <= 100) p /\ StronglySorted le p /\ (x = SpliceOk -> last p 0 = 100).
Proof. exact c73_percentage_ok. Qed.
Print Assumptions C73_percentage.
Theorem C73_ends : forall progress calls image, image <> [] \/ progress = false -> (forall c, In c calls -> c <> Fails) -> List.length image < List.length calls ->
  exists p, splice_image progress true true calls image = (SpliceOk, image, p).
Proof. exact c73_ends_ok. Qed.
Print Assumptions C73_ends.
Theorem C73_no_crash : forall progress stat_ok close_ok calls image, image <> [] \/ progress = false ->
  fst (fst (splice_image progress stat_ok close_ok calls image)) <> SpliceCrash.
Proof. exact c73_no_crash_ok. Qed.
Print Assumptions C73_no_crash.
Theorem C73_empty_refuted : forall k calls close_ok, splice_image true true close_ok (Moves k :: calls) [] = (SpliceCrash, [], []).
Proof. exact c73_empty_refuted. Qed.
Print Assumptions C73_empty_refuted.

Example C73_example : splice_image true true true [Moves 2; Moves 0; Moves 9; Moves 9] [1; 2; 3; 4; 5; 6; 7]%N = (SpliceOk, [1; 2; 3; 4; 5; 6; 7]%N, [42; 57; 100; 100]) /\
  splice_image true true true [Moves 2; Fails] [1; 2; 3; 4; 5; 6; 7]%N = (SpliceFailed, [1; 2; 3]%N, [42]).
Proof. vm_compute. split; reflexivity. Qed.
