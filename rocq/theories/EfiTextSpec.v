(** Vocabulary of C67: efibootmgr as a tool that shows and changes the EFI boot variables. *)
From Verif Require Import Base Slot Efi EfiSpec ContextSpec Custom CustomSpec EfiText.

(** four hexadecimal digits *)
Definition hex_digit (c : ascii) : bool := existsb (Ascii.eqb c) (list_ascii_of_string "0123456789abcdefABCDEF").
Definition boot_number (n : string) : Prop := String.length n = 4 /\ all_chars hex_digit n = true.
(** a label that the output can show *)
Definition label_ok (b : string) : Prop := b <> "" /\ no_char "010" b = true /\ no_char "009" b = true /\ text_only b.
Definition one_line (s : string) : Prop := no_char "010" s = true /\ text_only s.

(** a line for an entry: active or not; newer versions show the device path after a tab *)
Inductive entry_shown : entry -> string -> Prop :=
| Shown n b mark path : mark = "*" \/ mark = " " -> path = "" \/ (exists p, path = String "009" p /\ one_line p) ->
    entry_shown (n, b) ("Boot" ++ n ++ mark ++ " " ++ b ++ path).
Definition other_line (l : string) : Prop := one_line l /\ has_prefix "Boot" l = false.

Definition text_of (ls : list string) : string := fold_right (fun l t => (l ++ String "010" t)%string) "" ls.
Definition opt_line (key : string) (o : option string) : list string := match o with Some n => [(key ++ n)%string] | None => [] end.
Definition order_line (o : list string) : string :=
  match o with [] => "No BootOrder is set; firmware will attempt recovery" | _ => ("BootOrder: " ++ join "," o)%string end.

(** the output: BootNext, BootCurrent, BootOrder and the entries, with other lines before, in between and after *)
Definition printed (st : efi) (out : string) : Prop :=
  exists l1 l2 l3 l4 shown, Forall other_line (l1 ++ l2 ++ l3 ++ l4) /\ Forall2 entry_shown (ef_entries st) shown /\
    out = text_of (l1 ++ opt_line "BootNext: " (ef_next st) ++ l2 ++ opt_line "BootCurrent: " (ef_current st) ++ l3 ++ [order_line (ef_order st)] ++ shown ++ l4).

(** boot variables the output can show *)
Definition showable (st : efi) : Prop :=
  Forall (fun e => boot_number (fst e) /\ label_ok (snd e)) (ef_entries st) /\
  Forall boot_number (ef_order st) /\ (forall n, ef_next st = Some n -> boot_number n) /\ (forall n, ef_current st = Some n -> boot_number n).

(** A tool which does what its manual page says.  Every call may fail, changing nothing. *)
Record efi_tool {W} (run : program W) (view : W -> efi) : Prop := mkEfiTool {
  et_show : forall w w' o, run w [] = (w', o) -> view w' = view w /\ (failed o \/ exists out, o = Ran out (Some 0) /\ printed (view w) out);
  et_order : forall w w' o l, run w ["--bootorder"; join "," l] = (w', o) -> Forall boot_number l ->
    (failed o /\ view w' = view w) \/
    ((exists out, o = Ran out (Some 0)) /\ view w' = mkEfi (ef_entries (view w)) l (ef_next (view w)) (ef_current (view w)));
  et_next : forall w w' o n, run w ["--bootnext"; n] = (w', o) -> boot_number n ->
    (failed o /\ view w' = view w) \/
    ((exists out, o = Ran out (Some 0)) /\ view w' = mkEfi (ef_entries (view w)) (ef_order (view w)) (Some n) (ef_current (view w)));
  et_create : forall w w' o disk part b l c,
    run w ["--create-only"; "--disk"; disk; "--part"; part; "--label"; b; "--loader"; l; "--unicode"; c] = (w', o) ->
    (failed o /\ view w' = view w) \/
    ((exists out, o = Ran out (Some 0)) /\ created (view w) b (view w') /\ (showable (view w) -> label_ok b -> showable (view w')))
}.

(** the calls rauc may make for a slot: to list, to set the order, to set the next entry, and to create the slot's entry,
    with the slot's partition on its disk, its name, loader and command line *)
Definition call_for (s : efislot) (args : list string) : Prop :=
  args = [] \/ (exists l, args = ["--bootorder"; l]) \/ (exists n, args = ["--bootnext"; n]) \/
  (exists disk part loader cmdline, sn_dev s = Some (disk, part) /\ sn_loader s = Some loader /\ sn_cmdline s = Some cmdline /\
     args = ["--create-only"; "--disk"; disk; "--part"; part; "--label"; sn_bootname s; "--loader"; loader; "--unicode"; cmdline]).

(** what may have become of the entries: nothing, or the missing entry was created *)
Definition maybe_created (st : efi) (b : string) (st' : efi) : Prop := st' = st \/ created st b st'.
(** the result of creating the entry, if that was done *)
Definition created_by (st : efi) (b : string) (create : option efi) : Prop := forall st', create = Some st' -> created st b st'.
