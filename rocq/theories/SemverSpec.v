(** Vocabulary for C15: precedence of versions as defined by SemVer 2.0.0 (11),
    for numbers below 2^64. *)
From Verif Require Import Base.

(** lexicographic order; a proper prefix is smaller *)
Inductive lex_lt {A} (lt : A -> A -> Prop) : list A -> list A -> Prop :=
| lex_nil : forall b bs, lex_lt lt [] (b :: bs)
| lex_head : forall a b l l', lt a b -> lex_lt lt (a :: l) (b :: l')
| lex_tail : forall a l l', lex_lt lt l l' -> lex_lt lt (a :: l) (a :: l').

Inductive ident := Num (n : N) | Alpha (s : string).

Definition byte_lt (x y : ascii) : Prop := (N_of_ascii x < N_of_ascii y)%N.

(** numeric identifiers numerically, others in ASCII order, numeric ones first *)
Definition ident_lt (a b : ident) : Prop :=
  match a, b with
  | Num x, Num y => (x < y)%N
  | Num _, Alpha _ => True
  | Alpha _, Num _ => False
  | Alpha s, Alpha t => lex_lt byte_lt (list_ascii_of_string s) (list_ascii_of_string t)
  end.

Record version := mkVersion { v_core : list N; v_pre : option (list ident) }.

(** major, minor, patch; then a pre-release is smaller than the release; then the
    identifiers from left to right *)
Definition version_lt (a b : version) : Prop :=
  lex_lt N.lt (v_core a) (v_core b) \/
  v_core a = v_core b /\
    match v_pre a, v_pre b with
    | Some _, None => True
    | Some p, Some q => lex_lt ident_lt p q
    | None, _ => False
    end.

Definition version_le (a b : version) : Prop := a = b \/ version_lt a b.

(** ** Written versions *)
Definition all_digits (s : string) : bool :=
  negb (String.eqb s "") && all_chars (fun a => (48 <=? N_of_ascii a)%N && (N_of_ascii a <=? 57)%N) s.

(** an identifier as it can be written: a number below 2^64, or a word with a non-digit
    and without the separators *)
Definition ident_ok (i : ident) : Prop :=
  match i with
  | Num n => (n < 2 ^ 64)%N
  | Alpha s => all_digits s = false /\ s <> "" /\
      all_chars (fun a => negb (g_isspace a) && negb (N_of_ascii a =? 11)%N && negb (Ascii.eqb a ".")
                           && negb (Ascii.eqb a "-") && negb (Ascii.eqb a "+")) s = true
  end.
Definition ident_str (i : ident) : string := match i with Num n => print_num 10 n | Alpha s => s end.

(** MAJOR[.MINOR[.PATCH]][-PRE][+BUILD] *)
Definition written (nums : list N) (pre : option (list ident)) (build : option string) : string :=
  (join "." (map (print_num 10) nums)
   ++ (match pre with Some l => "-" ++ join "." (map ident_str l) | None => "" end)
   ++ (match build with Some b => "+" ++ b | None => "" end))%string.

Definition pad3 (nums : list N) : list N := firstn 3 (nums ++ [0; 0; 0]%N).

Definition written_ok (nums : list N) (pre : option (list ident)) (build : option string) : Prop :=
  1 <= List.length nums <= 3 /\ Forall (fun n => n < 2 ^ 64)%N nums /\
  match pre with Some l => l <> [] /\ Forall ident_ok l | None => True end /\
  match build with Some b => no_char "+" b = true | None => True end.
