(** UEFI boot manager behaviour, independent of rauc: BootNext (if set) is tried
    first, then the entries of BootOrder in order. *)
From Verif Require Import Base Slot Efi.

(** names of the entries in BootOrder, in order (numbers without entry are ignored) *)
Definition order_names (st : efi) : list string :=
  flat_map (fun n => match find (fun e => String.eqb n (fst e)) (ef_entries st) with
                     | Some e => [snd e] | None => [] end) (ef_order st).

(** name of the entry BootNext points to *)
Definition next_name (st : efi) : option string :=
  match ef_next st with
  | Some n => option_map snd (find (fun e => String.eqb n (fst e)) (ef_entries st))
  | None => None
  end.

(** The sequence of names the firmware tries. *)
Definition boot_sequence (st : efi) : list string :=
  match next_name st with Some n => n :: order_names st | None => order_names st end.

(** Boot#### variables have unique numbers *)
Definition efi_wf (st : efi) : Prop := NoDup (map fst (ef_entries st)).

(** A successful "efibootmgr --create-only" adds one entry with a fresh number and
    the requested label, and changes nothing else. *)
Definition created (st : efi) (b : string) (st' : efi) : Prop :=
  exists n, ~ In n (map fst (ef_entries st)) /\
    ef_entries st' = ef_entries st ++ [(n, b)] /\ ef_order st' = ef_order st /\
    ef_next st' = ef_next st /\ ef_current st' = ef_current st.

(** a created entry with a number that BootOrder / BootNext already contain (stale
    reference to a deleted entry) becomes visible there; the fresh number given by
    efibootmgr avoids numbers of existing entries only. *)
Definition no_stale (st : efi) : Prop :=
  (forall n, In n (ef_order st) -> In n (map fst (ef_entries st))) /\
  (forall n, ef_next st = Some n -> In n (map fst (ef_entries st))).


(** the list without the first occurrence of [b] *)
Fixpoint remove_name (l : list string) (b : string) : list string :=
  match l with
  | [] => []
  | x :: r => if String.eqb x b then r else x :: remove_name r b
  end.

