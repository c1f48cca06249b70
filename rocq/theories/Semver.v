(** Model of the version parsing and comparison in src/utils.c. *)
From Verif Require Import Base.

(** g_strrstr (s, "c") and cutting there: what is before and after the last [c]. *)
Fixpoint split_last (c : ascii) (s : string) : option (string * string) :=
  match s with
  | EmptyString => None
  | String a r =>
      match split_last c r with
      | Some (x, y) => Some (String a x, y)
      | None => if Ascii.eqb a c then Some (EmptyString, r) else None
      end
  end.

Definition is_sign (c : ascii) : bool := Ascii.eqb c "-" || Ascii.eqb c "+".

(** GLib: g_ascii_string_to_unsigned (s, 10, 0, G_MAXUINT64).  The string is rejected if it
    is empty, starts with white space or a sign, is not completely consumed by
    g_ascii_strtoull or is out of range.  (g_ascii_strtoull itself skips white space
    including \v, which is not white space for the first test.) *)
Definition string_to_unsigned (s : string) : option N :=
  match s with
  | EmptyString => None
  | String c _ =>
      if g_isspace c || is_sign c then None else
      let t := skip_space s in
      let '(neg, t) := match t with
                       | String c r => if Ascii.eqb c "-" then (true, r)
                                       else if Ascii.eqb c "+" then (false, r) else (false, t)
                       | EmptyString => (false, t)
                       end in
      if (match t with EmptyString => false | _ => true end)
         && all_chars (fun a => match digit_val a with Some d => (d <? 10)%N | None => false end) t then
        let v := horner 10 0 t in
        if (ullong_max <? v)%N then None
        else Some (if neg then (2 ^ 64 - v) mod 2 ^ 64 else v)%N
      else None
  end.

Record semver := mkSemver { sv_core : N * N * N; sv_pre : option string }.

(** utils.c:1002-1030: version core *)
Definition parse_core (s : string) : option (N * N * N) :=
  match g_strsplit_max "." 3 s with
  | [a] => match string_to_unsigned a with Some x => Some (x, 0, 0)%N | None => None end
  | [a; b] => match string_to_unsigned a, string_to_unsigned b with
              | Some x, Some y => Some (x, y, 0)%N | _, _ => None end
  | [a; b; c] => match string_to_unsigned a, string_to_unsigned b, string_to_unsigned c with
                 | Some x, Some y, Some z => Some (x, y, z) | _, _, _ => None end
  | _ => None
  end.

(** utils.c:940-1038 r_semver_parse (the build part is only cut off) *)
Definition semver_parse (s : string) : option semver :=
  let s1 := match split_last "+" s with Some (x, _) => x | None => s end in      (* :968-982 *)
  let '(core, pre) := match split_last "-" s1 with
                      | Some (x, y) => (x, Some y) | None => (s1, None) end in     (* :984-998 *)
  match parse_core core with
  | Some c => Some (mkSemver c pre)
  | None => None
  end.

(** strcmp (bytes compare as unsigned char) *)
Fixpoint str_cmp (a b : string) : comparison :=
  match a, b with
  | EmptyString, EmptyString => Eq
  | EmptyString, _ => Lt
  | _, EmptyString => Gt
  | String x a', String y b' =>
      match (N_of_ascii x ?= N_of_ascii y)%N with
      | Eq => str_cmp a' b'
      | c => c
      end
  end.

(** utils.c:1085-1121: the loop over the pre-release fields *)
Fixpoint fields_le (fa fb : list string) : bool :=
  match fa, fb with
  | [], _ => true
  | _ :: _, [] => false
  | a :: ra, b :: rb =>
      match string_to_unsigned a, string_to_unsigned b with
      | Some x, Some y => if (x <? y)%N then true else if (y <? x)%N then false else fields_le ra rb
      | Some _, None => true
      | None, Some _ => false
      | None, None => match str_cmp a b with Lt => true | Gt => false | Eq => fields_le ra rb end
      end
  end.

(** utils.c:1062-1069 *)
Definition core_cmp (a b : N * N * N) : comparison :=
  let '(a1, a2, a3) := a in
  let '(b1, b2, b3) := b in
  if (a1 <? b1)%N then Lt else if (b1 <? a1)%N then Gt else
  if (a2 <? b2)%N then Lt else if (b2 <? a2)%N then Gt else
  if (a3 <? b3)%N then Lt else if (b3 <? a3)%N then Gt else Eq.

(** utils.c:1040-1122 r_semver_less_equal: Err = FALSE with an error set *)
Definition semver_less_equal (a b : string) : res bool :=
  match semver_parse a with
  | None => Err
  | Some va =>
      match semver_parse b with
      | None => Err
      | Some vb =>
          Ok (match core_cmp (sv_core va) (sv_core vb) with
              | Lt => true
              | Gt => false
              | Eq => match sv_pre va, sv_pre vb with
                      | None, None => true
                      | None, Some _ => false
                      | Some _, None => true
                      | Some pa, Some pb => fields_le (g_strsplit "." pa) (g_strsplit "." pb)
                      end
              end)
      end
  end.

(** with error == NULL: a parse error also gives FALSE *)
Definition semver_le_bool (a b : string) : bool :=
  match semver_less_equal a b with Ok r => r | _ => false end.

(** manifest.c:510-530: check of min-rauc-version ([rauc] = RAUC_MESON_VERSION) *)
Definition check_min_rauc_version (rauc : string) (v : option string) : bool :=
  match v with
  | None => true
  | Some v => semver_le_bool "0" v && semver_le_bool v rauc && negb (semver_le_bool v "1.13")
  end.
