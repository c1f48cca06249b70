(** Model of src/bootloaders/uboot.c.

    The U-Boot environment is a map from variable names to values.  The external
    programs fw_printenv/fw_setenv are modelled by [fw_printenv]/[fw_setenv]
    (trusted: they print "KEY=value\n" resp. store the value atomically; fw_setenv
    with an empty value either deletes the variable or stores "" ([del] selects
    which, theorems quantify over it)). *)
From Verif Require Import Base Slot.

Definition env := string -> option string.

Definition newline : ascii := ascii_of_nat 10.

(** External tool: output of "fw_printenv KEY"; None = non-zero exit. *)
Definition fw_printenv (e : env) (key : string) : option string :=
  option_map (fun v => (key ++ "=" ++ v ++ String newline "")%string) (e key).

(** External tool: effect of "fw_setenv KEY VALUE". *)
Definition fw_setenv (del : bool) (e : env) (kv : string * string) : env :=
  upd e (fst kv) (if del && String.eqb (snd kv) "" then None else Some (snd kv)).

(** A reader is what fw_printenv answers for each key; it may fail for keys
    that exist (I/O errors). *)
Definition reader := string -> option string.

(** uboot.c:11-81 uboot_env_get *)
Definition uboot_env_get (rd : reader) (key : string) : res string :=
  match rd key with
  | None => Err                                       (* :43-60 *)
  | Some out =>
      let key_prefix := (key ++ "=")%string in        (* :66 *)
      if has_prefix key_prefix out                    (* :69-76 *)
      then Ok (chomp (sdrop (String.length key_prefix) out))   (* :77-78 *)
      else Err
  end.

(** uboot.c:147,205,253,320 *)
Definition left_key (bootname : string) : string := ("BOOT_" ++ bootname ++ "_LEFT")%string.

(** uboot.c:115-155 r_uboot_get_state.  [bootname] is slot->bootname. *)
Definition uboot_get_state (rd : reader) (bootname : string) : res bool :=
  do order <- uboot_env_get rd "BOOT_ORDER" ;;                         (* :128-131 *)
  if existsb (fun w => String.eqb w bootname) (g_strsplit " " order)   (* :134-140 *)
  then do attempts <- uboot_env_get rd (left_key bootname) ;;          (* :147-151 *)
       Ok (0 <? g_ascii_strtoull 16 attempts)%N                        (* :152 *)
  else Ok false.                                                       (* :141-144 *)

(** the entries kept by the loops :183-193 and :307-318 *)
Definition other_words (bootname : string) (order : string) : list string :=
  filter (fun w => negb (String.eqb w bootname) && negb (String.eqb w "")) (g_strsplit " " order).

(** uboot.c:208-210 / :322-324: configured attempts or the default.
    The configuration value is a C int; values <= 0 select the default. *)
Definition attempts_or_default (cfg : Z) : N := if (cfg <=? 0)%Z then 3 else Z.to_N cfg.

(** A mutator returns the sequence of fw_setenv calls it makes when all of
    them succeed.  The functions below never read after their first write. *)
Definition writes := list (string * string).

(** uboot.c:158-221 r_uboot_set_state *)
Definition uboot_set_state (rd : reader) (cfg_default_attempts : Z) (bootname : string) (good : bool)
  : writes :=
  if good then
    [(left_key bootname, print_num 16 (attempts_or_default cfg_default_attempts))]   (* :203-218 *)
  else
    match uboot_env_get rd "BOOT_ORDER" with
    | Ok order =>
        [("BOOT_ORDER", join " " (other_words bootname order));      (* :196-200 *)
         (left_key bootname, print_num 16 0)]                        (* :213-218 *)
    | _ => [(left_key bootname, print_num 16 0)]                     (* :174-178 goto set_left *)
    end.

(** uboot.c:244-264: the inner loop over the slot table for one word of the
    boot order: Ok None = no bootable match, Err = attempts unreadable. *)
Fixpoint find_bootable (rd : reader) (w : string) (slots : list slot) : res (option slot) :=
  match slots with
  | [] => Ok None
  | s :: ss =>
      if bootname_is w s then
        do attempts <- uboot_env_get rd (left_key w) ;;
        if (0 <? g_ascii_strtoull 16 attempts)%N then Ok (Some s)
        else find_bootable rd w ss
      else find_bootable rd w ss
  end.

(** uboot.c:242-268: the outer loop *)
Fixpoint first_bootable (rd : reader) (slots : list slot) (words : list string) : res slot :=
  match words with
  | [] => Err                                                       (* :270-276 *)
  | w :: ws =>
      do o <- find_bootable rd w slots ;;
      match o with Some s => Ok s | None => first_bootable rd slots ws end
  end.

(** uboot.c:224-279 r_uboot_get_primary *)
Definition uboot_get_primary (rd : reader) (slots : list slot) : res slot :=
  do order <- uboot_env_get rd "BOOT_ORDER" ;;
  first_bootable rd slots (g_strsplit " " order).

(** uboot.c:282-338 r_uboot_set_primary; [s] has bootname [b]. *)
Definition uboot_set_primary (rd : reader) (slots : list slot) (cfg_attempts_primary : Z)
  (s : slot) (b : string) : writes :=
  let order_current :=
    match uboot_env_get rd "BOOT_ORDER" with
    | Ok o => o
    | _ => order_primary slots s b                                  (* :298-303 *)
    end in
  let order_new := join " " (b :: other_words b order_current) in   (* :296, :306-318 *)
  [(left_key b, print_num 16 (attempts_or_default cfg_attempts_primary));   (* :320-331 *)
   ("BOOT_ORDER", order_new)].                                      (* :332-335 *)

(** Execution: the calls are made one after the other; the function stops at
    the first failing call, and a crash can happen between any two calls.  So
    the set of reachable environments is the set of prefixes. *)
Definition run (del : bool) (e : env) (ws : writes) : env := fold_left (fw_setenv del) ws e.
