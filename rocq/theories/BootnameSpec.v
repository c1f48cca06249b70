(** Vocabulary for the booted-slot detection (C51). *)
From Verif Require Import Base Slot Efi Bootname.

Definition is_space (c : ascii) : bool :=
  match N_of_ascii c with
  | 9%N | 10%N | 11%N | 12%N | 13%N | 32%N => true
  | _ => false
  end.

(** The parameters of a kernel command line: its non-empty words. *)
Fixpoint words_acc (cur : string) (s : string) : list string :=
  match s with
  | EmptyString => if String.eqb cur "" then [] else [cur]
  | String a r =>
      if is_space a then (if String.eqb cur "" then words_acc "" r else cur :: words_acc "" r)
      else words_acc (cur ++ String a "") r
  end.
Definition params (cmdline : string) : list string := words_acc "" cmdline.

(** [w] is the parameter [key] with a non-empty value [v]; [key] includes the '='. *)
Definition is_param (key v w : string) : Prop := w = (key ++ v)%string /\ v <> "".

(** [v] is the value of the first of the parameters [keys] that has a value. *)
Definition first_value (keys : list string) (ws : list string) (v : string) : Prop :=
  exists a w b k, ws = a ++ w :: b /\ In k keys /\ is_param k v w /\
    (forall x k' y, In x a -> In k' keys -> ~ is_param k' y x).

(** no parameter [key] with a value *)
Definition no_value (key : string) (ws : list string) : Prop :=
  forall x y, In x ws -> ~ is_param key y x.

(** A parameter contains [key], anywhere. *)
Definition contains (key w : string) : Prop := exists a b, w = (a ++ key ++ b)%string.
Definition none_contains (key : string) (ws : list string) : Prop :=
  forall w, In w ws -> ~ contains key w.

(** Wherever [key] occurs in a parameter it begins it: no "nfsroot=" in place of
    "root=" etc. *)
Definition only_at_start (key : string) (ws : list string) : Prop :=
  forall w a b, In w ws -> w = (a ++ key ++ b)%string -> a = "".

(** Nothing on the command line tells the booted slot explicitly. *)
Definition not_explicit (ws : list string) : Prop :=
  none_contains "rauc.external" ws /\ none_contains "root=/dev/nfs" ws /\
  only_at_start "rauc.slot=" ws /\ no_value "rauc.slot=" ws.

(** What the value of root= (or systemd.verity_root_data=) refers to *)
Inductive root_path : string -> string -> Prop :=
| RpLabel n : has_prefix "/" n = false -> root_path ("PARTLABEL=" ++ n) ("/dev/disk/by-partlabel/" ++ n)
| RpPartuuid n : has_prefix "/" n = false -> root_path ("PARTUUID=" ++ n) ("/dev/disk/by-partuuid/" ++ n)
| RpUuid n : has_prefix "/" n = false -> root_path ("UUID=" ++ n) ("/dev/disk/by-uuid/" ++ n)
| RpPlain p : has_prefix "PARTLABEL=" p = false -> has_prefix "PARTUUID=" p = false ->
    has_prefix "UUID=" p = false -> root_path p p.

(** the bootloader cannot tell: nothing, or an error *)
Definition bl_silent (bl : bootloader) (slots : list slot) (c : string) : Prop :=
  match bl with
  | BlCustom line ok => ok = false \/ line = None \/ line = Some ""
  | BlEfi st => efi_get_current_bootname st slots = Err
  | BlBarebox => only_at_start "bootstate.active=" (params c) /\ only_at_start "bootchooser.active=" (params c) /\
                 no_value "bootstate.active=" (params c) /\ no_value "bootchooser.active=" (params c)
  | BlOther => True
  end.

