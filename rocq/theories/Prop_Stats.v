(** Property theorems for statistics (C26). *)
From Verif Require Import Base Stats StatsProofs.
Open Scope Q_scope.

Theorem C26_total : forall l, (N.of_nat (List.length l) < 2 ^ 64)%N ->
  st_count (stats_of l) = N.of_nat (List.length l) /\ st_sum (stats_of l) == total l /\
  (l <> [] -> stats_avg (stats_of l) == mean l) /\ (l = [] -> stats_avg (stats_of l) = 0).
Proof. exact c26_total_ok. Qed.
Print Assumptions C26_total.
Theorem C26_recent : forall l, (N.of_nat (List.length l) < 2 ^ 64)%N -> l <> [] ->
  stats_recent_avg (stats_of l) == mean (last64 l).
Proof. exact c26_recent_ok. Qed.
Print Assumptions C26_recent.
Theorem C26_min : forall l, l <> [] -> (forall x, In x l -> x <= g_maxdouble) ->
  (exists m, In m l /\ st_min (stats_of l) == m) /\ (forall x, In x l -> st_min (stats_of l) <= x).
Proof. exact c26_min_ok. Qed.
Print Assumptions C26_min.
Theorem C26_max : forall l, (exists x, In x l /\ g_mindouble <= x) ->
  (exists m, In m l /\ st_max (stats_of l) == m) /\ (forall x, In x l -> x <= st_max (stats_of l)).
Proof. exact c26_max_ok. Qed.
Print Assumptions C26_max.
Theorem C26_max_refuted : exists l, l <> [] /\ (forall x, In x l -> x < 0) /\ 0 < st_max (stats_of l).
Proof. exact c26_max_refuted. Qed.
Print Assumptions C26_max_refuted.

(** non-vacuity: 100 values 1, 2, ..., 100 *)
Definition ex_values : list Q := map (fun n => inject_Z (Z.of_nat n)) (seq 1 100).
Example ex_stats : let s := stats_of ex_values in
  st_count s = 100%N /\ st_sum s == 5050 /\ st_min s == 1 /\ st_max s == 100 /\ stats_recent_avg s == 137 # 2.
Proof. repeat split; vm_compute; reflexivity. Qed.
Example ex_stats_hyp : (exists x, In x ex_values /\ g_mindouble <= x) /\ forall x, In x ex_values -> x <= g_maxdouble.
Proof.
  split.
  - exists 1. split; [now left|]. vm_compute. discriminate.
  - intros x Hx. apply in_map_iff in Hx as (n & <- & Hn). apply in_seq in Hn. unfold g_maxdouble. rewrite <- Zle_Qle.
    transitivity 100%Z; [lia|]. vm_compute. discriminate.
Qed.
