(** Model of src/utils.c:760-786 r_prepare_env_key and src/shell.c. *)
From Verif Require Import Base.

Definition is_lower (c : ascii) : bool := (97 <=? N_of_ascii c)%N && (N_of_ascii c <=? 122)%N.
Definition is_upper (c : ascii) : bool := (65 <=? N_of_ascii c)%N && (N_of_ascii c <=? 90)%N.
Definition is_num (c : ascii) : bool := (48 <=? N_of_ascii c)%N && (N_of_ascii c <=? 57)%N.
(** g_ascii_toupper, g_ascii_isalnum *)
Definition to_upper (c : ascii) : ascii := if is_lower c then ascii_of_N (N_of_ascii c - 32) else c.
Definition is_alnum (c : ascii) : bool := is_lower c || is_upper c || is_num c.

(** the loop :768-783, on the upper-cased key *)
Fixpoint env_key (s : string) : option string :=
  match s with
  | EmptyString => Some EmptyString
  | String c r =>
      let u := to_upper c in
      if is_alnum u || Ascii.eqb u "_" then option_map (String u) (env_key r)
      else if Ascii.eqb u "-" then option_map (String "_") (env_key r)
      else None
  end.

(** shell.c:5-33 r_shell_from_manifest_meta: (name, value) pairs of the variables, for the
    manifest's nested hash table (iteration order = list order). *)
Definition meta_vars (meta : list (string * list (string * string))) : list (string * string) :=
  flat_map (fun gk =>
    match env_key (fst gk) with
    | None => []
    | Some eg => flat_map (fun kv => match env_key (fst kv) with
                                     | None => []
                                     | Some ek => [(("RAUC_META_" ++ eg ++ "_" ++ ek)%string, snd kv)]
                                     end) (snd gk)
    end) meta.
