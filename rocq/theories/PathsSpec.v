(** Vocabulary of C82. *)
From Verif Require Import Base KeyFile Paths.
Open Scope list_scope.

(** A directory tree (symbolic links and ".." are a matter of [t_step]). *)
Record tree := mkTree { t_node : Type; t_root : t_node; t_step : t_node -> string -> option t_node }.
Definition absolute (p : string) : Prop := exists r, p = String "/" r.
Definition pkcs11 (p : string) : Prop := exists r, p = ("pkcs11:" ++ r)%string.
(** the names in a path; several slashes are like one *)
Definition names (p : string) : list string := filter (fun s => negb (String.eqb s "")) (split_on "/" p).
Fixpoint walk (t : tree) (d : t_node t) (l : list string) : option (t_node t) :=
  match l with [] => Some d | n :: r => match t_step t d n with Some d' => walk t d' r | None => None end end.
(** [finds t d p x]: a process that works in the directory [d] finds [x] under the path [p] *)
Definition start (t : tree) (d : t_node t) (p : string) : t_node t := match p with String c _ => if Ascii.eqb c "/" then t_root t else d | EmptyString => d end.
Definition finds (t : tree) (d : t_node t) (p : string) (x : t_node t) : Prop := walk t (start t d p) (names p) = Some x.
Definition directory (t : tree) (d : t_node t) : Prop := t_step t d "." = Some d.

(** for a process in [c], the file [f] lies in the directory [d] *)
Definition lies_in (t : tree) (c : t_node t) (f : string) (d : t_node t) : Prop :=
  exists ds name, f = (ds ++ name)%string /\ no_char "/" name = true /\ name <> ""%string /\
    (ds = ""%string \/ exists r, ds = (r ++ "/")%string) /\ finds t c ds d.

(** the path [p'] leads, from wherever it is used, to what the path [p] leads to in the directory [d]; PKCS#11 URLs are no paths *)
Definition means (t : tree) (d : t_node t) (p p' : string) : Prop :=
  (pkcs11 p /\ p' = p) \/ (~ pkcs11 p /\ absolute p' /\ forall later x, finds t later p' x <-> finds t d p x).
Definition opt_means (t : tree) (d : t_node t) (o o' : option string) : Prop :=
  match o, o' with None, None => True | Some p, Some p' => means t d p p' | _, _ => False end.
