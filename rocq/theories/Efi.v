(** Model of src/bootloaders/efi.c.

    The EFI boot variables are modelled structurally: the list of Boot####
    entries (number, name), BootOrder, BootNext and BootCurrent.  The text
    output of efibootmgr and the regular expressions that parse it (efi.c:245-325)
    are in EfiText.v; numbers are strings as in the code. *)
From Verif Require Import Base Slot.

Definition entry := (string * string)%type.        (* efi_bootentry: num, name (:8-12) *)

Record efi := mkEfi {
  ef_entries : list entry;
  ef_order : list string;          (* BootOrder *)
  ef_next : option string;         (* BootNext *)
  ef_current : option string       (* BootCurrent *)
}.

(** efi.c:159-174 get_efi_entry_by_bootnum *)
Definition by_num (es : list entry) (n : string) : option entry :=
  find (fun e => String.eqb n (fst e)) es.

(** first entry with a given name (:360-367, :416-422, :463-469) *)
Definition by_name (es : list entry) (b : string) : option entry :=
  find (fun e => String.eqb (snd e) b) es.

Record efi_info := mkInfo {
  in_order : list entry;           (* bootorder_entries *)
  in_all : list entry;             (* all_entries *)
  in_next : option entry;
  in_current : option entry
}.

(** efi.c:190-332 efi_bootorder_get: fails without any boot entry (:247-254) and
    without a (non-empty) BootOrder (:293-300); numbers in BootOrder without
    entry are skipped (:308-312). *)
Definition efi_bootorder_get (st : efi) : res efi_info :=
  match ef_entries st, ef_order st with
  | [], _ => Err
  | _, [] => Err
  | es, ord =>
      Ok (mkInfo (flat_map (fun n => match by_num es n with Some e => [e] | None => [] end) ord) es
                 (match ef_next st with Some n => by_num es n | None => None end)
                 (match ef_current st with Some n => by_num es n | None => None end))
  end.

(** efi.c:345-399 efi_bootorder_prepare.  [create] is the result of
    "efibootmgr --create-only" (:387; None = efi-loader/efi-cmdline not configured
    or the call failed). *)
Definition efi_prepare (st : efi) (b : string) (create : option efi) : res (efi * efi_info) :=
  do i <- efi_bootorder_get st ;;
  match by_name (in_all i) b with
  | Some _ => Ok (st, i)
  | None =>
      match create with
      | None => Err
      | Some st' => do i' <- efi_bootorder_get st' ;; Ok (st', i')
      end
  end.

(** efi.c:401-433 efi_set_temp_primary *)
Definition efi_set_temp_primary (st : efi) (b : string) (create : option efi) : res efi :=
  do (st1, i) <- efi_prepare st b create ;;
  match by_name (in_all i) b with
  | None => Abort                                            (* :425 g_assert_nonnull *)
  | Some e => Ok (mkEfi (ef_entries st1) (ef_order st1) (Some (fst e)) (ef_current st1))   (* :427 *)
  end.

(** efi.c:452-458: find the first entry named [b] and g_list_remove it.  g_list_remove
    removes the first list element with the same data pointer, which is this
    element or an earlier one with the same entry - but an earlier one would have
    been found first. *)
Fixpoint remove_first (es : list entry) (b : string) : list entry :=
  match es with
  | [] => []
  | e :: r => if String.eqb (snd e) b then r else e :: remove_first r b
  end.

(** efi.c:437-493 efi_modify_persistent_bootorder *)
Definition efi_modify_order (st : efi) (b : string) (prepend : bool) (create : option efi) : res efi :=
  do (st1, i) <- efi_prepare st b create ;;
  let entries := remove_first (in_order i) b in
  if prepend then
    match by_name (in_all i) b with
    | None => Abort                                          (* :472 *)
    | Some e => Ok (mkEfi (ef_entries st1) (map fst (e :: entries)) (ef_next st1) (ef_current st1))
    end
  else Ok (mkEfi (ef_entries st1) (map fst entries) (ef_next st1) (ef_current st1)).

(** efi.c:495-508 r_efi_set_state *)
Definition efi_set_state (st : efi) (b : string) (good : bool) (create : option efi) : res efi :=
  efi_modify_order st b good create.

(** efi.c:531-547 *)
Fixpoint efi_first_slot (es : list entry) (slots : list slot) : option slot :=
  match es with
  | [] => None
  | e :: r => match find (bootname_is (snd e)) slots with
              | Some s => Some s
              | None => efi_first_slot r slots
              end
  end.

(** efi.c:510-559 r_efi_get_primary *)
Definition efi_get_primary (st : efi) (slots : list slot) : res slot :=
  do i <- efi_bootorder_get st ;;
  let es := match in_next i with Some e => e :: in_order i | None => in_order i end in
  of_option (efi_first_slot es slots).

(** efi.c:561-583 r_efi_set_primary *)
Definition efi_set_primary (use_bootnext : bool) (st : efi) (b : string) (create : option efi) : res efi :=
  if use_bootnext then efi_set_temp_primary st b create
  else efi_modify_order st b true create.

(** efi.c:587-615 r_efi_get_state *)
Definition efi_get_state (st : efi) (b : string) : res bool :=
  do i <- efi_bootorder_get st ;;
  Ok (existsb (fun e => String.eqb b (snd e)) (in_order i)).

(** efi.c:617-643 r_efi_get_current_bootname; bootcurrent is dereferenced without
    a check for NULL (:632) as soon as there is a slot. *)
Fixpoint efi_current_loop (cur : option entry) (slots : list slot) : res string :=
  match slots with
  | [] => Err
  | s :: ss =>
      match cur with
      | None => Abort
      | Some e => if bootname_is (snd e) s then Ok (snd e) else efi_current_loop cur ss
      end
  end.
Definition efi_get_current_bootname (st : efi) (slots : list slot) : res string :=
  do i <- efi_bootorder_get st ;;
  efi_current_loop (in_current i) slots.
