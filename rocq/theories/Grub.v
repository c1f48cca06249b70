(** Model of src/bootloaders/grub.c.

    The GRUB environment block is an ordered list of (variable, value) pairs.
    The external program grub-editenv is modelled by [editenv_list] ("list":
    prints one "KEY=VALUE" line per variable) and [editenv_set] ("set": applies
    all given assignments in one atomic rewrite of the block); both trusted. *)
From Verif Require Import Base Slot.

Definition genv := list (string * string).

Definition nl : ascii := ascii_of_nat 10.

(** External tool: output of "grub-editenv PATH list". *)
Definition editenv_list (e : genv) : string :=
  fold_right (fun kv acc => (fst kv ++ "=" ++ snd kv ++ String nl acc)%string) "" e.

Fixpoint genv_set (e : genv) (k v : string) : genv :=
  match e with
  | [] => [(k, v)]
  | (k', v') :: r => if String.eqb k k' then (k', v) :: r else (k', v') :: genv_set r k v
  end.

(** External tool: one "KEY=VALUE" argument of "grub-editenv PATH set"; the
    name ends at the first '='. *)
Definition editenv_assign (e : genv) (arg : string) : genv :=
  match split_max "=" 1 arg with
  | [k; v] => genv_set e k v
  | _ => e
  end.
Definition editenv_set (e : genv) (args : list string) : genv := fold_left editenv_assign args e.

(** grub.c:72-82: the loop over the output lines *)
Fixpoint grub_find (key_prefix : string) (lines : list string) : res string :=
  match lines with
  | [] => Err                                                (* :85-91 *)
  | l :: ls =>
      if has_prefix key_prefix l
      then Ok (chomp (sdrop (String.length key_prefix) l))   (* :77-81 *)
      else grub_find key_prefix ls
  end.

(** grub.c:8-92 grub_env_get; [out] is the tool output, None = failure (:43-65). *)
Definition grub_env_get (out : option string) (key : string) : res string :=
  match out with
  | None => Err
  | Some o => grub_find (key ++ "=")%string (g_strsplit nl o)
  end.

(** octal / decimal / hexadecimal by prefix: g_ascii_strtoull (s, NULL, 0).
    Simplified: sign handling as in [g_ascii_strtoull]. *)
Definition strtoull0 (s : string) : N :=
  let t := skip_space s in
  match t with
  | String c (String x r) =>
      if Ascii.eqb c "0" then (if is_x x then g_ascii_strtoull 16 t else horner 8 0 t)
      else g_ascii_strtoull 10 t
  | _ => g_ascii_strtoull 10 t
  end.

Definition ok_key (b : string) : string := (b ++ "_OK")%string.
Definition try_key (b : string) : string := (b ++ "_TRY")%string.

(** grub.c:184 / :268 (negated): OK == 1 and TRY == 0 *)
Definition ok_try_good (okv tryv : string) : bool :=
  (strtoull0 okv =? 1)%N && (strtoull0 tryv =? 0)%N.

(** grub.c:139-187 r_grub_get_state *)
Definition grub_get_state (out : option string) (b : string) : res bool :=
  do order <- grub_env_get out "ORDER" ;;                           (* :154-157 *)
  if existsb (fun w => String.eqb w b) (g_strsplit " " order)       (* :160-170 *)
  then do okv <- grub_env_get out (ok_key b) ;;                     (* :173-177 *)
       do tryv <- grub_env_get out (try_key b) ;;                   (* :179-183 *)
       Ok (ok_try_good okv tryv)                                    (* :184 *)
  else Ok false.

(** grub.c:190-213 r_grub_set_state: the arguments of the single "set" call *)
Definition grub_set_state (b : string) (good : bool) : list string :=
  if good then [(b ++ "_OK=1")%string; (b ++ "_TRY=0")%string]
  else [(b ++ "_OK=0")%string; (b ++ "_TRY=0")%string].

(** grub.c:245-274 inner loop *)
Fixpoint grub_find_slot (out : option string) (w : string) (slots : list slot) : res (option slot) :=
  match slots with
  | [] => Ok None
  | s :: ss =>
      if bootname_is w s then
        do okv <- grub_env_get out (ok_key w) ;;
        do tryv <- grub_env_get out (try_key w) ;;
        if negb (strtoull0 okv =? 1)%N || (0 <? strtoull0 tryv)%N
        then grub_find_slot out w ss
        else Ok (Some s)
      else grub_find_slot out w ss
  end.

(** grub.c:243-287 outer loop *)
Fixpoint grub_first (out : option string) (slots : list slot) (ws : list string) : res slot :=
  match ws with
  | [] => Err
  | w :: r =>
      do o <- grub_find_slot out w slots ;;
      match o with Some s => Ok s | None => grub_first out slots r end
  end.

(** grub.c:216-290 r_grub_get_primary.  [order->len] (:232) is the length before
    g_strchomp (which does not update len); an empty value after "ORDER=" gives
    len 0; a blank one gives no words and ends in the same error. *)
Definition grub_get_primary (out : option string) (slots : list slot) : res slot :=
  do order <- grub_env_get out "ORDER" ;;
  grub_first out slots (g_strsplit " " order).

(** grub.c:293-314 r_grub_set_primary: arguments of the single "set" call *)
Definition grub_set_primary (slots : list slot) (s : slot) (b : string) : list string :=
  [(b ++ "_OK=1")%string; (b ++ "_TRY=0")%string; ("ORDER=" ++ order_primary slots s b)%string].
