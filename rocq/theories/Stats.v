(** Model of src/stats.c: statistics with a ring buffer of the 64 most recent values.

    gdouble values are modelled by rational numbers: every finite gdouble is one, but the
    rounding of additions and divisions is not modelled; NaN and infinities are excluded. *)
From Coq Require Export QArith.
From Verif Require Import Base.

(** include/stats.h RaucStats *)
Record stats := mkStats {
  st_count : N;              (* guint64 *)
  st_sum : Q;
  st_min : Q;
  st_max : Q;
  st_values : nat -> Q;      (* gdouble values[64] *)
  st_next : nat
}.

Definition g_maxdouble : Q := inject_Z ((2 ^ 53 - 1) * 2 ^ 971).
Definition g_mindouble : Q := 1 # (2 ^ 1022).      (* G_MINDOUBLE: the smallest positive normal value *)

(** stats.c:6-15 r_stats_new *)
Definition stats_new : stats := mkStats 0 0 g_maxdouble g_mindouble (fun _ => 0%Q) 0.

Definition Qltb (a b : Q) : bool := negb (Qle_bool b a).

(** stats.c:17-31 r_stats_add *)
Definition stats_add (s : stats) (v : Q) : stats :=
  mkStats ((st_count s + 1) mod 2 ^ 64) (st_sum s + v)
    (if Qltb v (st_min s) then v else st_min s)
    (if Qltb (st_max s) v then v else st_max s)
    (fun i => if Nat.eqb i (st_next s) then v else st_values s i)
    ((st_next s + 1) mod 64).

(** stats.c:33-41 r_stats_get_avg *)
Definition stats_avg (s : stats) : Q :=
  if (st_count s =? 0)%N then 0 else st_sum s / inject_Z (Z.of_N (st_count s)).

Fixpoint sum_first (f : nat -> Q) (n : nat) : Q :=
  match n with O => 0 | S m => sum_first f m + f m end.

(** stats.c:43-60 r_stats_get_recent_avg *)
Definition stats_recent_avg (s : stats) : Q :=
  let count := if (64 <? st_count s)%N then 64%N else st_count s in
  let sum := sum_first (st_values s) (N.to_nat count) in
  if (count =? 0)%N then 0 else sum / inject_Z (Z.of_N count).

Definition stats_of (l : list Q) : stats := fold_left stats_add l stats_new.
