(** Vocabulary of C84: reading JSON (RFC 8259).  Nothing here is taken from rauc. *)
From Verif Require Import Base Json.
Open Scope string_scope.

(** * A JSON reader.  Numbers with a fraction or an exponent are not read (rauc writes none). *)
Definition quote : ascii := "034"%char.
Definition backslash : ascii := "092"%char.
Definition is_ws (c : ascii) : bool := existsb (Ascii.eqb c) ["032"; "009"; "010"; "013"]%char.
Fixpoint skip_ws (s : string) : string := match s with String c r => if is_ws c then skip_ws r else s | "" => "" end.

Definition hex4 (a b c d : ascii) : option N :=
  match digit_val a, digit_val b, digit_val c, digit_val d with
  | Some a, Some b, Some c, Some d => Some (((a * 16 + b) * 16 + c) * 16 + d)%N
  | _, _, _, _ => None
  end.
(** UTF-8 *)
Definition utf8 (n : N) : string :=
  let tail k := ascii_of_N (128 + N.land (N.shiftr n k) 63) in
  if (n <? 128)%N then String (ascii_of_N n) ""
  else if (n <? 2048)%N then String (ascii_of_N (192 + N.shiftr n 6)) (String (tail 0%N) "")
  else if (n <? 65536)%N then String (ascii_of_N (224 + N.shiftr n 12)) (String (tail 6%N) (String (tail 0%N) ""))
  else String (ascii_of_N (240 + N.shiftr n 18)) (String (tail 12%N) (String (tail 6%N) (String (tail 0%N) ""))).
Definition short_escape (c : ascii) : option ascii :=
  if Ascii.eqb c quote then Some quote else if Ascii.eqb c backslash then Some backslash else if Ascii.eqb c "/" then Some "/"%char
  else if Ascii.eqb c "b" then Some "008"%char else if Ascii.eqb c "f" then Some "012"%char else if Ascii.eqb c "n" then Some "010"%char
  else if Ascii.eqb c "r" then Some "013"%char else if Ascii.eqb c "t" then Some "009"%char else None.
Definition before (t : string) (o : option (string * string)) : option (string * string) :=
  match o with Some (x, r) => Some (t ++ x, r) | None => None end.
(** the rest of a string, after the opening quote: (value, what follows the closing quote) *)
Fixpoint read_chars (s : string) : option (string * string) :=
  match s with
  | "" => None
  | String c r =>
      if Ascii.eqb c quote then Some ("", r)
      else if Ascii.eqb c backslash then
        match r with
        | "" => None
        | String e r1 =>
            if Ascii.eqb e "u" then
              match r1 with
              | String h1 (String h2 (String h3 (String h4 r2))) =>
                  match hex4 h1 h2 h3 h4 with
                  | None => None
                  | Some n =>
                      if ((n <? 55296) || (57343 <? n))%N then before (utf8 n) (read_chars r2)
                      else match r2 with
                           | String b (String u (String l1 (String l2 (String l3 (String l4 r3))))) =>
                               match hex4 l1 l2 l3 l4 with
                               | Some m =>
                                   if Ascii.eqb b backslash && Ascii.eqb u "u" && (n <? 56320)%N && (56320 <=? m)%N && (m <? 57344)%N
                                   then before (utf8 (65536 + (n - 55296) * 1024 + (m - 56320))) (read_chars r3) else None
                               | None => None
                               end
                           | _ => None
                           end
                  end
              | _ => None
              end
            else match short_escape e with Some x => before (String x "") (read_chars r1) | None => None end
        end
      else if (N_of_ascii c <? 32)%N then None
      else before (String c "") (read_chars r)
  end.

Definition is_decimal (c : ascii) : bool := (48 <=? N_of_ascii c)%N && (N_of_ascii c <=? 57)%N.
Fixpoint digits (s : string) : string * string :=
  match s with
  | String c r => if is_decimal c then let (d, t) := digits r in (String c d, t) else ("", s)
  | "" => ("", "")
  end.
Definition read_number (s : string) : option (json * string) :=
  let '(neg, r) := match s with String c t => if Ascii.eqb c "-" then (true, t) else (false, s) | "" => (false, s) end in
  let (d, t) := digits r in
  match d with
  | "" => None
  | _ => if match t with String c _ => existsb (Ascii.eqb c) ["."; "e"; "E"]%char | "" => false end then None
         else Some (JInt (if neg then - Z.of_N (horner 10 0 d) else Z.of_N (horner 10 0 d))%Z, t)
  end.

(** the elements of an array and the members of an object, after the opening bracket (at least one) *)
Fixpoint elements (rv : string -> option (json * string)) (k : nat) (s : string) : option (list json * string) :=
  match k with
  | 0 => None
  | S k =>
      match rv s with
      | None => None
      | Some (v, t) =>
          match skip_ws t with
          | String c u => if Ascii.eqb c "]" then Some ([v], u)
                          else if Ascii.eqb c "," then match elements rv k u with Some (l, w) => Some (v :: l, w) | None => None end
                          else None
          | "" => None
          end
      end
  end.
Fixpoint members (rv : string -> option (json * string)) (k : nat) (s : string) : option (list (string * json) * string) :=
  match k with
  | 0 => None
  | S k =>
      match skip_ws s with
      | String q s1 =>
          if negb (Ascii.eqb q quote) then None else
          match read_chars s1 with
          | None => None
          | Some (name, s2) =>
              match skip_ws s2 with
              | String c s3 =>
                  if negb (Ascii.eqb c ":") then None else
                  match rv s3 with
                  | None => None
                  | Some (v, t) =>
                      match skip_ws t with
                      | String c u => if Ascii.eqb c "}" then Some ([(name, v)], u)
                                      else if Ascii.eqb c "," then match members rv k u with Some (l, w) => Some ((name, v) :: l, w) | None => None end
                                      else None
                      | "" => None
                      end
                  end
              | "" => None
              end
          end
      | "" => None
      end
  end.
Definition starts (c : ascii) (s : string) : bool := match s with String a _ => Ascii.eqb a c | "" => false end.
Fixpoint read_value (n : nat) (s : string) : option (json * string) :=
  match n with
  | 0 => None
  | S n =>
      match skip_ws s with
      | "" => None
      | String c r =>
          if Ascii.eqb c quote then match read_chars r with Some (x, t) => Some (JStr x, t) | None => None end
          else if Ascii.eqb c "[" then
            if starts "]" (skip_ws r) then Some (JArr [], sdrop 1 (skip_ws r))
            else match elements (read_value n) n r with Some (l, t) => Some (JArr l, t) | None => None end
          else if Ascii.eqb c "{" then
            if starts "}" (skip_ws r) then Some (JObj [], sdrop 1 (skip_ws r))
            else match members (read_value n) n r with Some (l, t) => Some (JObj l, t) | None => None end
          else if has_prefix "null" (String c r) then Some (JNull, sdrop 4 (String c r))
          else if has_prefix "true" (String c r) then Some (JBool true, sdrop 4 (String c r))
          else if has_prefix "false" (String c r) then Some (JBool false, sdrop 5 (String c r))
          else read_number (String c r)
      end
  end.
(** the value at the beginning of a text (nothing is nested deeper than the text is long), and the rest *)
Definition json_next (s : string) : option (json * string) := read_value (String.length s) s.
(** a text which is one value *)
Definition json_read (s : string) : option json :=
  match json_next s with Some (v, r) => if String.eqb (skip_ws r) "" then Some v else None | None => None end.
(** a text which is a sequence of values *)
Fixpoint json_values (n : nat) (s : string) : option (list json) :=
  match n with
  | 0 => None
  | S n => if String.eqb (skip_ws s) "" then Some [] else
           match json_next (skip_ws s) with
           | Some (v, r) => match json_values n r with Some l => Some (v :: l) | None => None end
           | None => None
           end
  end.
Definition json_stream (s : string) : option (list json) := json_values (S (String.length s)) s.

(** * What a value says: [v] is an object with exactly one member [k], and its value is [x] *)
Definition has (v : json) (k : string) (x : json) : Prop :=
  exists l, v = JObj l /\ filter (fun e => String.eqb (fst e) k) l = [(k, x)].
Definition has_not (v : json) (k : string) : Prop :=
  exists l, v = JObj l /\ filter (fun e => String.eqb (fst e) k) l = [].
Fixpoint has_at (v : json) (p : list string) (x : json) : Prop :=
  match p with [] => v = x | k :: r => exists w, has v k w /\ has_at w r x end.
Definition str_or_null (o : option string) : json := match o with Some s => JStr s | None => JNull end.
Definition strings (l : list string) : json := JArr (map JStr l).
(** the member is there exactly if the string is known *)
Definition has_opt (v : json) (k : string) (o : option string) : Prop :=
  match o with Some s => has v k (JStr s) | None => has_not v k end.

(** * What is assumed of json-glib's generator: the text it makes (compact or pretty) is JSON for the tree,
    without line breaks if compact; objects begin and end with a brace *)
Definition line_break : ascii := "010"%char.
Record honest (gen : bool -> json -> string) : Prop := {
  h_reads : forall p v rest, json_next (gen p v ++ String line_break rest) = Some (v, String line_break rest);
  h_compact : forall v, no_char line_break (gen false v) = true;
  h_ends : forall p l, exists t, gen p (JObj l) = "{" ++ t ++ "}" }.

(** such a generator: two blanks per level if pretty *)
Definition hexd (n : N) : ascii := ascii_of_N (if (n <? 10)%N then 48 + n else 87 + n).
Definition esc (c : ascii) : string :=
  if Ascii.eqb c quote || Ascii.eqb c backslash then String backslash (String c "")
  else if (N_of_ascii c <? 32)%N || (N_of_ascii c =? 127)%N
       then "\u00" ++ String (hexd (N_of_ascii c / 16)) (String (hexd (N_of_ascii c mod 16)) "")
       else String c "".
Fixpoint escape (s : string) : string := match s with String c r => esc c ++ escape r | "" => "" end.
Definition quoted (s : string) : string := String quote (escape s ++ String quote "").
Fixpoint indent (n : nat) : string := match n with 0 => "" | S k => "  " ++ indent k end.
Definition brk (p : bool) (n : nat) : string := if p then String line_break (indent n) else "".
Definition int_text (z : Z) : string := if (z <? 0)%Z then "-" ++ print_num 10 (Z.to_N (- z)) else print_num 10 (Z.to_N z).
Definition seps {A} (f : A -> string) (sep : string) : list A -> string :=
  fix go l := match l with [] => "" | [x] => f x | x :: r => f x ++ sep ++ go r end.
Fixpoint gen_at (p : bool) (n : nat) (v : json) : string :=
  match v with
  | JNull => "null"
  | JBool b => if b then "true" else "false"
  | JStr s => quoted s
  | JInt z => int_text z
  | JArr [] => "[]"
  | JArr l => "[" ++ brk p (S n) ++ seps (gen_at p (S n)) ("," ++ brk p (S n)) l ++ brk p n ++ "]"
  | JObj [] => "{}"
  | JObj l => "{" ++ brk p (S n) ++ seps (fun e => quoted (fst e) ++ (if p then " : " else ":") ++ gen_at p (S n) (snd e)) ("," ++ brk p (S n)) l ++ brk p n ++ "}"
  end.
Definition json_text (p : bool) (v : json) : string := gen_at p 0 v.
