(** Shared vocabulary of the rauc model: results, strings and number parsing.

    Nothing in this file is specific to one rauc source file: it models the
    GLib / libc helpers that the rauc code calls.  GLib itself is not part of
    /repo; these definitions are part of the trusted reading. *)

From Coq Require Export List Ascii String NArith ZArith Bool Lia.
From Coq Require Export ZifyBool ZifyNat ZifyN.
Export ListNotations.
Open Scope string_scope.
Open Scope list_scope.

(** Result of a C function with a [GError **error] argument: success, an error
    that is reported to the caller, or a process abort ([g_assert], [g_error],
    NULL dereference, SIGFPE ...). *)
Inductive res (A : Type) : Type :=
| Ok (a : A)
| Err
| Abort.
Arguments Ok {A} a.
Arguments Err {A}.
Arguments Abort {A}.

Definition bind {A B} (r : res A) (f : A -> res B) : res B :=
  match r with Ok a => f a | Err => Err | Abort => Abort end.

Notation "'do' x <- r ;; k" := (bind r (fun x => k))
  (at level 200, x pattern, r at level 100, k at level 200, right associativity).

Definition is_ok {A} (r : res A) : bool := match r with Ok _ => true | _ => false end.

Definition of_option {A} (o : option A) : res A :=
  match o with Some a => Ok a | None => Err end.

(** ** Strings *)

(** [g_ascii_isspace]: space, \t, \n, \f, \r (GLib's ascii table; \v is not included). *)
Definition g_isspace (c : ascii) : bool :=
  match N_of_ascii c with
  | 9%N | 10%N | 12%N | 13%N | 32%N => true
  | _ => false
  end.

(** [g_strchomp]: remove trailing whitespace. *)
Fixpoint chomp (s : string) : string :=
  match s with
  | EmptyString => EmptyString
  | String a r =>
      match chomp r with
      | EmptyString => if g_isspace a then EmptyString else String a EmptyString
      | r' => String a r'
      end
  end.

(** [g_strchug]: remove leading whitespace. *)
Fixpoint chug (s : string) : string :=
  match s with
  | EmptyString => EmptyString
  | String a r => if g_isspace a then chug r else s
  end.

(** Split at every occurrence of [c]; never returns []. *)
Fixpoint split_on (c : ascii) (s : string) : list string :=
  match s with
  | EmptyString => [EmptyString]
  | String a r =>
      if Ascii.eqb a c then EmptyString :: split_on c r
      else match split_on c r with
           | w :: ws => String a w :: ws
           | [] => [String a EmptyString]
           end
  end.

(** [g_strsplit (s, "c", -1)]: as [split_on], but "" gives the empty vector
    (GLib documentation: "As a special case, the result of splitting the empty
    string is an empty vector"). *)
Definition g_strsplit (c : ascii) (s : string) : list string :=
  match s with EmptyString => [] | _ => split_on c s end.

(** Split at the first [n] occurrences of [c] only. *)
Fixpoint split_max (c : ascii) (n : nat) (s : string) : list string :=
  match n with
  | O => [s]
  | S m =>
      (fix go (s : string) : list string :=
         match s with
         | EmptyString => [EmptyString]
         | String a r =>
             if Ascii.eqb a c then EmptyString :: split_max c m r
             else match go r with
                  | w :: ws => String a w :: ws
                  | [] => [String a EmptyString]
                  end
         end) s
  end.

(** [g_strsplit (s, "c", max)] for [max >= 1]. *)
Definition g_strsplit_max (c : ascii) (max : nat) (s : string) : list string :=
  match s with EmptyString => [] | _ => split_max c (max - 1) s end.

(** [g_strjoinv]. *)
Fixpoint join (sep : string) (l : list string) : string :=
  match l with
  | [] => EmptyString
  | [w] => w
  | w :: ws => (w ++ sep ++ join sep ws)%string
  end.

(** [g_str_has_prefix (s, p)]. *)
Fixpoint has_prefix (p s : string) : bool :=
  match p, s with
  | EmptyString, _ => true
  | String a p', String b s' => Ascii.eqb a b && has_prefix p' s'
  | String _ _, EmptyString => false
  end.

(** [s + n] pointer arithmetic on a string. *)
Fixpoint sdrop (n : nat) (s : string) : string :=
  match n, s with
  | O, _ => s
  | S m, String _ r => sdrop m r
  | S _, EmptyString => EmptyString
  end.

Fixpoint stake (n : nat) (s : string) : string :=
  match n, s with
  | O, _ => EmptyString
  | S m, String a r => String a (stake m r)
  | S _, EmptyString => EmptyString
  end.

(** every character of the string satisfies [p] *)
Fixpoint all_chars (p : ascii -> bool) (s : string) : bool :=
  match s with
  | EmptyString => true
  | String a r => p a && all_chars p r
  end.

Definition has_char (c : ascii) (s : string) : bool :=
  negb (all_chars (fun a => negb (Ascii.eqb a c)) s).

Definition no_char (c : ascii) (s : string) : bool :=
  all_chars (fun a => negb (Ascii.eqb a c)) s.

(** no whitespace at all and not empty *)
Definition clean_word (s : string) : bool :=
  negb (String.eqb s "") && all_chars (fun a => negb (g_isspace a)) s.

(** ** Numbers *)

(** value of a digit character in bases up to 16 *)
Definition digit_val (c : ascii) : option N :=
  let n := N_of_ascii c in
  if (48 <=? n)%N && (n <=? 57)%N then Some (n - 48)%N
  else if (97 <=? n)%N && (n <=? 102)%N then Some (n - 87)%N
  else if (65 <=? n)%N && (n <=? 70)%N then Some (n - 55)%N
  else None.

Definition digit_char (d : N) : ascii :=
  if (d <? 10)%N then ascii_of_N (48 + d) else ascii_of_N (87 + d).

(** digits of [n] in base [b], least significant last, prepended to [acc] *)
Fixpoint print_digits (fuel : nat) (b n : N) (acc : string) : string :=
  match fuel with
  | O => acc
  | S f =>
      let acc' := String (digit_char (n mod b)) acc in
      if (n / b =? 0)%N then acc' else print_digits f b (n / b) acc'
  end.

(** printf "%u" / "%x" (lower case) of a non-negative number *)
Definition print_num (b n : N) : string := print_digits (S (N.to_nat (N.size n))) b n "".

(** value of the longest digit prefix; overflow is handled by the caller *)
Fixpoint horner (b : N) (acc : N) (s : string) : N :=
  match s with
  | EmptyString => acc
  | String c r =>
      match digit_val c with
      | Some d => if (d <? b)%N then horner b (acc * b + d) r else acc
      | None => acc
      end
  end.

Definition is_x (c : ascii) : bool := Ascii.eqb c "x" || Ascii.eqb c "X".

(** [ISSPACE] of g_ascii_strtoull: as [g_isspace] plus \v *)
Definition strtol_space (c : ascii) : bool := g_isspace c || (N_of_ascii c =? 11)%N.

Fixpoint skip_space (s : string) : string :=
  match s with
  | EmptyString => EmptyString
  | String a r => if strtol_space a then skip_space r else s
  end.

Definition ullong_max : N := (2 ^ 64 - 1)%N.

(** [g_ascii_strtoull (s, NULL, base)] for base 10 or 16: skip whitespace, sign,
    0x prefix (base 16), digits; saturates at ULLONG_MAX; a minus sign negates
    modulo 2^64. *)
Definition g_ascii_strtoull (b : N) (s : string) : N :=
  let s := skip_space s in
  let '(neg, s) :=
    match s with
    | String c r => if Ascii.eqb c "-" then (true, r)
                    else if Ascii.eqb c "+" then (false, r) else (false, s)
    | EmptyString => (false, s)
    end in
  let s :=
    match s with
    | String c (String x r) =>
        if (b =? 16)%N && Ascii.eqb c "0" && is_x x then r else s
    | _ => s
    end in
  let v := horner b 0 s in
  if (ullong_max <? v)%N then ullong_max
  else if neg then ((2 ^ 64 - v) mod 2 ^ 64)%N else v.

(** ** Slots (only the fields used by the boot chooser; include/slot.h) *)

(** total map update *)
Definition upd {B} (m : string -> B) (k : string) (v : B) : string -> B :=
  fun k' => if String.eqb k k' then v else m k'.

(** [g_strcmp0 (o, s) == 0] for a possibly NULL [o] and a non-NULL [s]. *)
Definition opt_is (o : option string) (s : string) : bool :=
  match o with Some x => String.eqb x s | None => false end.

(** [g_strcmp0 (a, b) == 0] where both may be NULL. *)
Definition opt_eqb (a b : option string) : bool :=
  match a, b with
  | Some x, Some y => String.eqb x y
  | None, None => true
  | _, _ => false
  end.
