(** Model of the text interface of src/bootloaders/efi.c to efibootmgr: its output (efi.c:190-332) and the calls
    (efi.c:26-157, 345-493).  What is done with the parsed information is Efi.v.  The tool is any function of a
    state and its arguments. *)
From Verif Require Import Base Slot Efi Custom.
From Verif Require Context.

Definition is_hex (c : ascii) : bool :=
  let n := N_of_ascii c in
  ((48 <=? n) && (n <=? 57) || (65 <=? n) && (n <=? 70) || (97 <=? n) && (n <=? 102))%N%bool.
Definition hex4 (s : string) : bool := (String.length s =? 4)%nat && all_chars is_hex s.
(** PCRE \S *)
Definition nonspace (c : ascii) : bool :=
  match N_of_ascii c with 9%N | 10%N | 11%N | 12%N | 13%N | 32%N => false | _ => true end.

(** efi.c:268-270: anything after a tab is removed *)
Fixpoint until_tab (s : string) : string :=
  match s with
  | EmptyString => EmptyString
  | String a r => if Ascii.eqb a "009" then EmptyString else String a (until_tab r)
  end.

(** A line that matches ^Boot([0-9a-fA-F]{4})[\* ] (.+)$ (efi.c:246).  Simplification: lines end at a newline only
    (GRegex would also end them at other Unicode line ends). *)
Definition entry_line (l : string) : option entry :=
  if has_prefix "Boot" l && hex4 (stake 4 (sdrop 4 l)) then
    match sdrop 8 l with
    | String m (String sp (String c r)) =>
        if (Ascii.eqb m "*" || Ascii.eqb m " ") && Ascii.eqb sp " "
        then Some (stake 4 (sdrop 4 l), until_tab (String c r)) else None
    | _ => None
    end
  else None.

(** A line that matches ^KEY(VALUE)$ (efi.c:281, 294, 319) *)
Definition value_line (key : string) (p : string -> bool) (l : string) : option string :=
  if has_prefix key l && p (sdrop (String.length key) l) then Some (sdrop (String.length key) l) else None.

(** the first match *)
Fixpoint first_match {A} (f : string -> option A) (ls : list string) : option A :=
  match ls with
  | [] => None
  | l :: r => match f l with Some x => Some x | None => first_match f r end
  end.
(** all of them, in order *)
Definition all_matches {A} (f : string -> option A) (ls : list string) : list A :=
  flat_map (fun l => match f l with Some x => [x] | None => [] end) ls.
Definition some_nonspace (s : string) : bool := negb (String.eqb s "") && all_chars nonspace s.

(** efi.c:243-332 *)
Definition parse_output (out : string) : res efi_info :=
  let ls := split_on "010" (Context.cstring out) in
  match all_matches entry_line ls with
  | [] => Err
  | es =>
      let find_num o := match o with Some n => by_num es n | None => None end in
      match first_match (value_line "BootOrder: " some_nonspace) ls with
      | None => Err
      | Some o => Ok (mkInfo (flat_map (fun n => match by_num es n with Some e => [e] | None => [] end) (g_strsplit "," o)) es
                             (find_num (first_match (value_line "BootNext: " hex4) ls))
                             (find_num (first_match (value_line "BootCurrent: " hex4) ls)))
      end
  end.

(** efi.c:190-241 efi_bootorder_get *)
Definition text_bootorder_get {W} (run : program W) (w : W) : W * res efi_info :=
  let '(w', o) := run w [] in
  (w', match o with Ran out (Some n) => if (n =? 0)%nat then parse_output out else Err | _ => Err end).

Definition ok_outcome (o : outcome) : bool := match o with Ran _ (Some n) => (n =? 0)%nat | _ => false end.
Definition text_call {W} (run : program W) (args : list string) (w : W) : W * res unit :=
  let '(w', o) := run w args in (w', if ok_outcome o then Ok tt else Err).

(** the slot as far as it matters; [sn_dev]: device and partition number found through /sys, None: not found *)
Record efislot := mkEfislot { sn_bootname : string; sn_dev : option (string * string); sn_loader : option string; sn_cmdline : option string }.

(** efi.c:26-88 efi_bootentry_create (with efi.c:376-383: both must be configured) *)
Definition text_create {W} (run : program W) (s : efislot) (w : W) : W * res unit :=
  match sn_loader s, sn_cmdline s, sn_dev s with
  | Some l, Some c, Some (disk, part) =>
      text_call run ["--create-only"; "--disk"; disk; "--part"; part; "--label"; sn_bootname s; "--loader"; l; "--unicode"; c] w
  | _, _, _ => (w, Err)
  end.

(** efi.c:345-399 efi_bootorder_prepare *)
Definition text_prepare {W} (run : program W) (s : efislot) (w : W) : W * res efi_info :=
  let '(w1, r1) := text_bootorder_get run w in
  match r1 with
  | Ok i =>
      match by_name (in_all i) (sn_bootname s) with
      | Some _ => (w1, Ok i)
      | None =>
          let '(w2, r2) := text_create run s w1 in
          match r2 with Ok _ => text_bootorder_get run w2 | _ => (w2, Err) end
      end
  | _ => (w1, Err)
  end.

(** efi.c:401-433 efi_set_temp_primary *)
Definition text_set_temp_primary {W} (run : program W) (s : efislot) (w : W) : W * res unit :=
  let '(w1, r) := text_prepare run s w in
  match r with
  | Ok i => match by_name (in_all i) (sn_bootname s) with
            | None => (w1, Abort)
            | Some e => text_call run ["--bootnext"; fst e] w1
            end
  | _ => (w1, Err)
  end.

(** efi.c:437-493 efi_modify_persistent_bootorder *)
Definition text_modify_order {W} (run : program W) (s : efislot) (prepend : bool) (w : W) : W * res unit :=
  let '(w1, r) := text_prepare run s w in
  match r with
  | Ok i =>
      let entries := remove_first (in_order i) (sn_bootname s) in
      if prepend then
        match by_name (in_all i) (sn_bootname s) with
        | None => (w1, Abort)
        | Some e => text_call run ["--bootorder"; join "," (map fst (e :: entries))] w1
        end
      else text_call run ["--bootorder"; join "," (map fst entries)] w1
  | _ => (w1, Err)
  end.

(** efi.c:495-508, 561-583 *)
Definition text_set_state {W} (run : program W) (s : efislot) (good : bool) (w : W) : W * res unit := text_modify_order run s good w.
Definition text_set_primary {W} (run : program W) (use_bootnext : bool) (s : efislot) (w : W) : W * res unit :=
  if use_bootnext then text_set_temp_primary run s w else text_modify_order run s true w.

(** efi.c:510-559, 587-615, 617-643: what is read, as in Efi.v *)
Definition text_get_primary {W} (run : program W) (slots : list slot) (w : W) : W * res slot :=
  let '(w', r) := text_bootorder_get run w in
  (w', do i <- r ;; of_option (efi_first_slot (match in_next i with Some e => e :: in_order i | None => in_order i end) slots)).
Definition text_get_state {W} (run : program W) (b : string) (w : W) : W * res bool :=
  let '(w', r) := text_bootorder_get run w in
  (w', do i <- r ;; Ok (existsb (fun e => String.eqb b (snd e)) (in_order i))).
Definition text_get_current {W} (run : program W) (slots : list slot) (w : W) : W * res string :=
  let '(w', r) := text_bootorder_get run w in (w', do i <- r ;; efi_current_loop (in_current i) slots).
