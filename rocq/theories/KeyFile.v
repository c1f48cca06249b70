(** GKeyFile (GLib, trusted): an ordered list of groups with ordered keys.  Values are
    the unescaped strings; string lists are the items each followed by ';' (GKeyFile
    escapes ';' inside items; here such items are excluded by the theorems).
    The text format itself is not modelled: loading what was saved gives the same
    groups, keys and values. *)
From Verif Require Import Base.

Definition group := list (string * string).
Definition keyfile := list (string * group).

Fixpoint assoc {B} (k : string) (l : list (string * B)) : option B :=
  match l with
  | [] => None
  | (k', v) :: r => if String.eqb k' k then Some v else assoc k r
  end.

(** replace the first entry with this key or append a new one *)
Fixpoint assoc_set {B} (k : string) (v : B) (l : list (string * B)) : list (string * B) :=
  match l with
  | [] => [(k, v)]
  | (k', v') :: r => if String.eqb k' k then (k', v) :: r else (k', v') :: assoc_set k v r
  end.

Definition assoc_remove {B} (k : string) (l : list (string * B)) : list (string * B) :=
  filter (fun e => negb (String.eqb (fst e) k)) l.

Definition kf_group (kf : keyfile) (g : string) : option group := assoc g kf.
Definition kf_get (kf : keyfile) (g k : string) : option string :=
  match kf_group kf g with Some l => assoc k l | None => None end.

(** g_key_file_set_string / set_value *)
Definition kf_set (kf : keyfile) (g k v : string) : keyfile :=
  assoc_set g (assoc_set k v (match kf_group kf g with Some l => l | None => [] end)) kf.
Definition kf_set_opt (kf : keyfile) (g k : string) (v : option string) : keyfile :=
  match v with Some s => kf_set kf g k s | None => kf end.

(** g_key_file_remove_group, g_key_file_remove_key *)
Definition kf_remove_group (kf : keyfile) (g : string) : keyfile := assoc_remove g kf.
Definition kf_remove_key (kf : keyfile) (g k : string) : keyfile :=
  match kf_group kf g with
  | Some l => assoc_set g (assoc_remove k l) kf
  | None => kf
  end.

Definition kf_groups (kf : keyfile) : list string := map fst kf.
Definition kf_keys (kf : keyfile) (g : string) : list string :=
  match kf_group kf g with Some l => map fst l | None => [] end.

(** g_key_file_set_string_list / g_key_file_get_string_list *)
Definition list_value (l : list string) : string := join "" (map (fun s => s ++ ";")%string l).
Definition value_list (s : string) : list string :=
  let l := split_on ";" s in
  match last l "" with EmptyString => removelast l | _ => l end.

(** g_key_file_set_uint64 / g_key_file_get_uint64: g_ascii_strtoull must consume the whole
    value *)
Definition strtoull_all (s : string) : option N :=
  let t := skip_space s in
  let t := match t with String c r => if Ascii.eqb c "-" || Ascii.eqb c "+" then r else t | EmptyString => t end in
  if (match t with EmptyString => false | _ => true end)
     && all_chars (fun a => match digit_val a with Some d => (d <? 10)%N | None => false end) t
  then Some (g_ascii_strtoull 10 s) else None.

(** utils.c:385-409 key_file_consume_string (removing the key is modelled by
    [kf_remaining]) *)
Inductive consumed := CMissing | CEmpty | CVal (s : string).
Definition kf_consume (kf : keyfile) (g k : string) : consumed :=
  match kf_get kf g k with
  | None => CMissing
  | Some EmptyString => CEmpty
  | Some s => CVal s
  end.
(** with error == NULL: both errors give NULL *)
Definition kf_consume_opt (kf : keyfile) (g k : string) : option string :=
  match kf_consume kf g k with CVal s => Some s | _ => None end.

(** utils.c:371-383 check_remaining_keys, after the keys [used] were consumed *)
Definition kf_only (kf : keyfile) (g : string) (used : list string) : bool :=
  forallb (fun k => existsb (String.eqb k) used) (kf_keys kf g).
