(** Durations and progress lines as they are printed: src/utils.c:1124-1143 r_format_duration (printed by
    src/polling.c:93), src/main.c:62-88 make_progress_line and :130-145 (the lines of rauc install). *)
From Verif Require Import Base.
Open Scope string_scope.

(** printf %d, %lld *)
Definition dec_z (z : Z) : string := if (z <? 0)%Z then "-" ++ print_num 10 (Z.to_N (- z)) else print_num 10 (Z.to_N z).
Fixpoint repeat_c (c : ascii) (n : nat) : string := match n with 0 => "" | S k => String c (repeat_c c k) end.
(** printf %3d *)
Definition dec3 (z : Z) : string := repeat_c " " (3 - String.length (dec_z z)) ++ dec_z z.

(** utils.c:1124-1143; / and % of C round towards zero *)
Definition format_duration (total : Z) : string :=
  let seconds := Z.rem total 60 in
  let minutes := Z.rem (Z.quot total 60) 60 in
  let hours := Z.rem (Z.quot total 3600) 24 in
  let days := Z.quot total (3600 * 24) in
  chomp ((if (days =? 0)%Z then "" else dec_z days ++ "d ")
      ++ (if (hours =? 0)%Z then "" else dec_z hours ++ "h ")
      ++ (if (minutes =? 0)%Z then "" else dec_z minutes ++ "m ")
      ++ (if (seconds =? 0)%Z && negb (total =? 0)%Z then "" else dec_z seconds ++ "s")).

(** main.c:76-82: the loop from [i], [n] steps left *)
Fixpoint bar_from (i : Z) (n : nat) (limit : Z) : string :=
  match n with 0 => "" | S k => String (if (limit <? i)%Z then " " else "#")%char (bar_from (i + 1) k limit) end.
(** main.c:62-88; [cols]: w.ws_col (80 if unknown).  None: NULL (g_return_val_if_fail) *)
Definition progress_bar (cols percentage : Z) : option string :=
  if (percentage <=? 100)%Z then
    let len := (cols - 1 - 1 - 5)%Z in
    Some ("[" ++ bar_from 0 (Z.to_nat len) (Z.quot (len * percentage) 100) ++ "]" ++ dec3 percentage ++ "%")
  else None.
(** main.c:144 *)
Definition progress_line (percentage : Z) (message : string) : string := dec3 percentage ++ "% " ++ message.
(** main.c:142, without the escape sequences: the two lines on a terminal; printf %s of NULL *)
Definition terminal_lines (cols percentage : Z) (message : string) : string * string :=
  (progress_line percentage message, match progress_bar cols percentage with Some b => b | None => "(null)" end).
