(** C85: durations and progress lines. *)
From Verif Require Import Base BaseLemmas Duration DurationSpec DurationProofs.
Open Scope string_scope.

Theorem C85_duration_says_the_seconds : forall n, says_duration (format_duration n) n.
Proof. exact c85_duration_ok. Qed.
Print Assumptions C85_duration_says_the_seconds.
Theorem C85_duration_has_one_meaning : forall s n m, says_duration s n -> says_duration s m -> n = m.
Proof. exact c85_one_meaning_ok. Qed.
Print Assumptions C85_duration_has_one_meaning.
Theorem C85_durations_distinct : forall n m, format_duration n = format_duration m -> n = m.
Proof. exact c85_distinct_ok. Qed.
Print Assumptions C85_durations_distinct.
Theorem C85_progress_bar : forall cols p, (7 <= cols)%Z -> (0 <= p <= 100)%Z ->
  exists line filled empty, progress_bar cols p = Some line /\ Z.of_nat (String.length line) = (cols - 1)%Z /\
  bar_shows line filled empty p /\ Z.of_nat (filled + empty) = (cols - 7)%Z /\
  ((cols - 7) * p <= 100 * Z.of_nat filled <= (cols - 7) * p + 100)%Z /\ (p = 100%Z -> empty = 0).
Proof. exact c85_bar_ok. Qed.
Print Assumptions C85_progress_bar.
Theorem C85_progress_bar_grows : forall cols p p' a b, progress_bar cols p = Some a -> progress_bar cols p' = Some b -> (p <= p')%Z -> marks a <= marks b.
Proof. exact c85_bar_grows_ok. Qed.
Print Assumptions C85_progress_bar_grows.
Theorem C85_empty_at_zero_refuted : ~ (forall cols line, (7 <= cols)%Z -> progress_bar cols 0 = Some line -> marks line = 0).
Proof. exact c85_empty_refuted. Qed.
Print Assumptions C85_empty_at_zero_refuted.
Theorem C85_fits_narrow_terminal_refuted : ~ (forall cols p line, (0 <= p <= 100)%Z -> (0 <= cols)%Z -> progress_bar cols p = Some line -> (Z.of_nat (String.length line) <= cols)%Z).
Proof. exact c85_narrow_refuted. Qed.
Print Assumptions C85_fits_narrow_terminal_refuted.
Theorem C85_progress_line : forall p m, exists pad d, progress_line p m = pad ++ d ++ "% " ++ m /\ number_text p d /\ pad = String.concat "" (repeat " " (3 - String.length d)).
Proof. exact c85_line_ok. Qed.
Print Assumptions C85_progress_line.
Theorem C85_progress_lines_distinct : forall p q m k, progress_line p m = progress_line q k -> p = q /\ m = k.
Proof. exact c85_lines_distinct_ok. Qed.
Print Assumptions C85_progress_lines_distinct.

Example ex_durations : map format_duration [0; 1; 61; 3601; 86400; 90061; -75]%Z = ["0s"; "1s"; "1m 1s"; "1h 1s"; "1d"; "1d 1h 1m 1s"; "-1m -15s"].
Proof. vm_compute. reflexivity. Qed.
Example ex_bars : map (progress_bar 17) [0; 50; 99; 100; 101]%Z = [Some "[#         ]  0%"; Some "[######    ] 50%"; Some "[##########] 99%"; Some "[##########]100%"; None].
Proof. vm_compute. reflexivity. Qed.
Example ex_lines : progress_line 40 "Checking bundle done." = " 40% Checking bundle done." /\ terminal_lines 4 7 "x" = ("  7% x", "[]  7%").
Proof. vm_compute. split; reflexivity. Qed.
