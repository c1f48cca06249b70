(** What the GRUB boot script of docs/integration.rst does with the environment
    block, independent of the rauc code. *)
From Verif Require Import Base Slot Grub.

Definition gvar (e : genv) (k : string) : option string :=
  match find (fun kv => String.eqb (fst kv) k) e with
  | Some kv => Some (snd kv)
  | None => None
  end.

Definition gorder (e : genv) : list string :=
  match gvar e "ORDER" with
  | Some v => filter (fun w => negb (String.eqb w "")) (split_on " " (chomp v))
  | None => []
  end.

(** The script's test  [ "$X_OK" -eq 1 -a "$X_TRY" -eq 0 ] *)
Definition gready (e : genv) (n : string) : bool :=
  match gvar e (n ++ "_OK")%string, gvar e (n ++ "_TRY")%string with
  | Some o, Some t => (strtoull0 (chomp o) =? 1)%N && (strtoull0 (chomp t) =? 0)%N
  | _, _ => false
  end.

Definition gboots (e : genv) (n : string) : Prop :=
  exists pre post, gorder e = pre ++ n :: post /\ gready e n = true /\
                   Forall (fun m => gready e m = false) pre.

(** A well-formed environment block: variable names contain neither '=' nor a
    newline, values contain no newline. *)
Definition wf_genv (e : genv) : Prop :=
  Forall (fun kv => no_char "=" (fst kv) = true /\ no_char nl (fst kv) = true /\
                    no_char nl (snd kv) = true) e.

Definition ok_bootname (b : string) : bool := clean_word b && no_char "=" b.
