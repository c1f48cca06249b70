(** Vocabulary of C85. *)
From Verif Require Import Base BaseLemmas.
Open Scope string_scope.

Inductive tunit := Days | Hours | Minutes | Seconds.
Definition letter (u : tunit) : string := match u with Days => "d" | Hours => "h" | Minutes => "m" | Seconds => "s" end.
Definition seconds_of (u : tunit) : Z := match u with Days => 86400%Z | Hours => 3600%Z | Minutes => 60%Z | Seconds => 1%Z end.
Definition rank (u : tunit) : nat := match u with Days => 3 | Hours => 2 | Minutes => 1 | Seconds => 0 end.
(** fewer than the next larger unit has *)
Definition small (x : Z * tunit) : Prop := match snd x with Days => True | Hours => (Z.abs (fst x) < 24)%Z | _ => (Z.abs (fst x) < 60)%Z end.
(** decimal numbers *)
Definition number_text (z : Z) (s : string) : Prop := exists d, all_chars (is_digit 10) d = true /\ d <> "" /\ horner 10 0 d = Z.to_N (Z.abs z) /\ s = (if (z <? 0)%Z then "-" else "") ++ d.
Definition part_text (x : Z * tunit) (s : string) : Prop := exists n, number_text (fst x) n /\ s = n ++ letter (snd x).
Fixpoint total (l : list (Z * tunit)) : Z := match l with [] => 0%Z | x :: r => (fst x * seconds_of (snd x) + total r)%Z end.
Fixpoint falling (l : list (Z * tunit)) : Prop :=
  match l with [] => True | x :: r => Forall (fun y => rank (snd y) < rank (snd x)) r /\ falling r end.
(** a text says that a duration is [n] seconds *)
Definition says_duration (s : string) (n : Z) : Prop :=
  exists l words, s = join " " words /\ Forall2 part_text l words /\ l <> [] /\ total l = n /\ falling l /\ Forall small l /\
  Forall (fun x : Z * tunit => (0 < n -> 0 < fst x)%Z /\ (n < 0 -> fst x < 0)%Z /\ (n = 0%Z -> x = (0%Z, Seconds))) l.

(** how many marks a text has *)
Fixpoint marks (s : string) : nat := match s with "" => 0 | String c r => (if Ascii.eqb c "#" then 1 else 0) + marks r end.
(** a bar: marks, then blanks, between brackets; then the percentage in three columns *)
Definition bar_shows (line : string) (filled empty : nat) (percentage : Z) : Prop :=
  exists f e pad d, line = "[" ++ f ++ e ++ "]" ++ pad ++ d ++ "%" /\
  f = String.concat "" (repeat "#" filled) /\ e = String.concat "" (repeat " " empty) /\
  pad = String.concat "" (repeat " " (3 - String.length d)) /\ number_text percentage d.
