(** The slots in the readable output of "rauc status": src/main.c:1455-1514 r_string_append_slot, :1516-1591
    r_string_append_repo, :1593-1651 r_status_formatter_readable, and src/slot.c:79-94, 97-132, 343-431.

    Simplifications: the text is a list of lines (a line break in a configured value is not split); the lines for
    "slot status:" (detailed output) and the lines of a repository below its first are given by their text after
    the indentation; a hash table is a list in its iteration order; a slot of the table is found by its name. *)
From Verif Require Import Base Slot Install.
Open Scope string_scope.

(** main.c:919-927 *)
Definition esc (s : string) : string := String (ascii_of_nat 27) s.
Definition KNRM := esc "[0m".
Definition KRED := esc "[31m".
Definition KGRN := esc "[32m".
Definition KBLU := esc "[34m".
Definition KBLD := esc "[1m".
(** main.c:1461-1465; U+23FA and U+25CB *)
Definition utf8_of (a b c : nat) : string := String (ascii_of_nat a) (String (ascii_of_nat b) (String (ascii_of_nat c) "")).
Definition mark_primary (utf8 : bool) : string := if utf8 then utf8_of 226 143 186 else (KBLD ++ "x" ++ KNRM)%string.
Definition mark_other (utf8 : bool) : string := if utf8 then utf8_of 226 151 139 else "o".

Inductive boot_state := BUnknown | BGood | BBad.
(** a repository: its name and path, the other lines *)
Record repo := mkRepo { rp_name : string; rp_path : string; rp_rest : list string }.
(** RaucStatusPrint; [p_details]: the lines added for detailed output *)
Record print := mkPrint {
  p_compatible : string; p_variant : string; p_version : string; p_bootslot : string;
  p_slots : list slot; p_state : states; p_boot : string -> boot_state; p_descr : string -> option string; p_mount : string -> option string;
  p_details : string -> list string; p_primary : option slot; p_repos : list repo }.

(** slot.c:97-132 *)
Definition state_str (s : slot_state) : string := match s with ST_ACTIVE => "active" | ST_INACTIVE => "inactive" | ST_BOOTED => "booted" end.
Definition boot_str (b : boot_state) : string := match b with BUnknown => "unknown" | BGood => "good" | BBad => "bad" end.

(** slot.c:389-407 *)
Definition all_of_class (slots : list slot) (c : string) : list slot := filter (fun s => String.eqb (sl_class s) c) slots.
(** slot.c:409-431 *)
Definition all_children (slots : list slot) (p : slot) : list slot :=
  filter (fun s => negb (same_slot s p) && same_slot (parent_root (List.length slots) slots s) p) slots.

(** main.c:1455-1514 *)
Definition is_primary (p : print) (s : slot) : bool := match p_primary p with Some q => same_slot s q | None => false end.
Definition first_line (utf8 : bool) (p : print) (s : slot) : string :=
  let st := p_state p (sl_name s) in
  ((match sl_bootname s with
    | Some _ => if is_primary p s then mark_primary utf8 else mark_other utf8
    | None => " "
    end) ++ (match sl_parent s with Some _ => "   " | None => " " end)
    ++ (match st with ST_ACTIVE | ST_BOOTED => KGRN | ST_INACTIVE => "" end)
    ++ (match st with ST_BOOTED => KGRN | _ => "" end)
    ++ KBLD ++ "[" ++ sl_name s ++ "]" ++ KNRM ++ " (" ++ sl_device s ++ ", " ++ sl_type s ++ ", "
    ++ (match st with ST_BOOTED => KBLD | _ => "" end) ++ state_str st ++ KNRM ++ ")")%string.
Definition opt_line (pre : string) (v : option string) : list string := match v with Some x => [(pre ++ x)%string] | None => [] end.
Definition slot_lines (utf8 detailed : bool) (p : print) (s : slot) : list string :=
  first_line utf8 p s
  :: opt_line ("      bootname: " ++ KBLU) (option_map (fun b => b ++ KNRM)%string (sl_bootname s))
  ++ opt_line "      description: " (p_descr p (sl_name s))
  ++ opt_line "      mounted: " (p_mount p (sl_name s))
  ++ (match sl_bootname s with
      | Some _ => [("      boot status: " ++ (match p_boot p (sl_name s) with BGood => KGRN | _ => KRED end) ++ boot_str (p_boot p (sl_name s)) ++ KNRM)%string]
      | None => []
      end)
  ++ (if detailed then map (fun l => ("      " ++ l)%string) (p_details p (sl_name s)) else []).

(** main.c:1619-1637: the slots in the order they are shown, one block for each *)
Definition blocks (slots : list slot) : list (list slot) :=
  flat_map (fun c => map (fun x => x :: all_children slots x) (all_of_class slots c)) (root_classes slots).
Definition listing (slots : list slot) : list slot := List.concat (blocks slots).

(** main.c:1516-1591 *)
Definition repo_lines (r : repo) : list string :=
  (KBLD ++ "[" ++ rp_name r ++ "]" ++ KNRM ++ " (" ++ rp_path r ++ ")")%string :: map (fun l => ("  " ++ l)%string) (rp_rest r) ++ [""].

Definition booted (p : print) : option slot := find (fun s => state_eqb (p_state p (sl_name s)) ST_BOOTED) (p_slots p).
(** main.c:1593-1651; printf shows NULL as "(null)" *)
Definition or_null (v : option string) : string := match v with Some x => x | None => "(null)" end.
Definition output (utf8 detailed : bool) (p : print) : list string :=
  ["=== System Info ==="; ("Compatible:     " ++ p_compatible p)%string; ("Variant:        " ++ p_variant p)%string;
   ("System Version: " ++ p_version p)%string;
   ("Booted from:    " ++ or_null (option_map sl_name (booted p)) ++ " (" ++ p_bootslot p ++ ")")%string; "";
   "=== Bootloader ===";
   match p_primary p with None => "Activated: none" | Some s => ("Activated: " ++ sl_name s ++ " (" ++ or_null (sl_bootname s) ++ ")")%string end; "";
   "=== Slot States ==="]
  ++ flat_map (fun b => (flat_map (slot_lines utf8 detailed p) b ++ [""])%list) (blocks (p_slots p))
  ++ (match p_repos p with [] => [] | l => "=== Artifact Repo States ===" :: flat_map repo_lines l end).
