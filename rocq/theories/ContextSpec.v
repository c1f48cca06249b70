(** Vocabulary for the choice of the configuration and the system variant (C54, C55). *)
From Verif Require Import Base KeyFile Config Context.

(** the value the command line gives to a key: the last one counts *)
Definition last_override (ovs : list override) (g k : string) : option string :=
  match find (fun o => String.eqb (ov_section o) g && String.eqb (ov_name o) k) (rev ovs) with
  | Some o => Some (ov_value o)
  | None => None
  end.

(** the path to use when none is given: the first of the search path which exists; if there is none, the last *)
Definition chosen_path (present : string -> bool) (p : string) : Prop :=
  exists before after, search_paths = before ++ p :: after /\
    (forall q, In q before -> present q = false) /\ (present p = true \/ after = []).

(** the path which counts for a command line, if a file is looked at at all *)
Definition config_path (present : string -> bool) (cl : cmdline) (p : string) : Prop :=
  match cl_config cl with
  | Some q => p = q
  | None => cl_mode cl <> ModeNone /\ chosen_path present p
  end.

(** [t] is [s] without white space on both sides *)
Definition space_only (s : string) : Prop := all_chars g_isspace s = true.
Definition trimmed (s t : string) : Prop :=
  exists a b, s = (a ++ t ++ b)%string /\ space_only a /\ space_only b /\
    (forall c r, t = String c r -> g_isspace c = false) /\
    (forall c r, t = (r ++ String c "")%string -> g_isspace c = false).

(** a line of the system-info handler's output which sets a variable *)
Definition var_line (k v l : string) : Prop := l = (k ++ "=" ++ v)%string.
(** the last such line counts *)
Definition handler_var (text k v : string) : Prop :=
  exists before after l, split_on "010" text = before ++ l :: after /\ var_line k v l /\
    forall l' v', In l' after -> ~ var_line k v' l'.
Definition no_handler_var (text k : string) : Prop :=
  forall l v, In l (split_on "010" text) -> ~ var_line k v l.

(** no NUL in the text *)
Definition text_only (s : string) : Prop := no_char Ascii.zero s = true.
