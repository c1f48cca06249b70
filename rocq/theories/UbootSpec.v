(** Specification vocabulary for U-Boot: what the boot script described in
    docs/integration.rst ("U-Boot") does with the environment, independent of
    the rauc code.  *)
From Verif Require Import Base Slot Uboot.

(** The value of a variable, ignoring trailing white space. *)
Definition val_of (e : env) (k : string) : option string := option_map chomp (e k).

(** The boot order as a list of names (the script iterates over the
    blank-separated words of BOOT_ORDER). *)
Definition order_of (e : env) : list string :=
  match val_of e "BOOT_ORDER" with
  | Some v => filter (fun w => negb (String.eqb w "")) (split_on " " v)
  | None => []
  end.

(** Remaining attempts (hexadecimal; unset or garbage counts as 0). *)
Definition left_of (e : env) (n : string) : N :=
  match val_of e ("BOOT_" ++ n ++ "_LEFT")%string with
  | Some v => g_ascii_strtoull 16 v
  | None => 0
  end.

(** The script boots the first name in the order with attempts left. *)
Definition boots (e : env) (n : string) : Prop :=
  exists pre post, order_of e = pre ++ n :: post /\ (0 < left_of e n)%N /\
                   Forall (fun m => left_of e m = 0%N) pre.

(** What a reader returns is what the environment contains; it may fail, but
    it never lies. *)
Definition honest (rd : reader) (e : env) : Prop :=
  forall k out, rd k = Some out -> fw_printenv e k = Some out.

(** names of the boot order contain no white space *)
Definition clean_order (e : env) : Prop := Forall (fun w => clean_word w = true) (order_of e).
