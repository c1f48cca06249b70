(** Vocabulary of C87. *)
From Verif Require Import Base Slot Install InstallSpec Listing.
Open Scope string_scope.

(** how often a slot of this name is shown *)
Definition shown (slots : list slot) (n : string) : nat := List.length (filter (String.eqb n) (map sl_name (listing slots))).
(** the class of [s] also has a top-level slot *)
Definition class_has_root (slots : list slot) (s : slot) : Prop := exists r, In r slots /\ sl_parent r = None /\ sl_class r = sl_class s.
(** no class has both top-level slots and slots with a parent *)
Definition unmixed (slots : list slot) : Prop := forall s p, In s slots -> sl_parent s = Some p -> ~ class_has_root slots s.
(** the lines of the output which start with the mark of the primary slot *)
Definition marked (utf8 : bool) (lines : list string) : list string := filter (has_prefix (mark_primary utf8)) lines.
(** what a terminal shows: the colour sequences (from ESC to the next "m") take no place *)
Fixpoint plain (in_seq : bool) (s : string) : string :=
  match s with
  | EmptyString => ""
  | String a r => if in_seq then plain (negb (Ascii.eqb a "m"%char)) r
                  else if Ascii.eqb a (ascii_of_nat 27) then plain true r else String a (plain false r)
  end.
Definition no_esc (s : string) : Prop := no_char (ascii_of_nat 27) s = true.
(** the names of the states *)
Definition state_name (s : slot_state) : string := match s with ST_BOOTED => "booted" | ST_ACTIVE => "active" | ST_INACTIVE => "inactive" end.
(** the line a user expects for a slot *)
Definition expected_line (utf8 primary : bool) (s : slot) (state : string) : string :=
  ((match sl_bootname s with
    | None => " "
    | Some _ => if utf8 then (if primary then utf8_of 226 143 186 else utf8_of 226 151 139) else if primary then "x" else "o"
    end) ++ (match sl_parent s with None => " " | Some _ => "   " end)
   ++ "[" ++ sl_name s ++ "] (" ++ sl_device s ++ ", " ++ sl_type s ++ ", " ++ state ++ ")")%string.
(** the further lines expected for a slot *)
Definition expected_more (p : print) (s : slot) : list string :=
  (match sl_bootname s with Some b => [("      bootname: " ++ b)%string] | None => [] end
   ++ match p_descr p (sl_name s) with Some t => [("      description: " ++ t)%string] | None => [] end
   ++ match p_mount p (sl_name s) with Some t => [("      mounted: " ++ t)%string] | None => [] end
   ++ match sl_bootname s with
      | Some _ => [match p_boot p (sl_name s) with BGood => "      boot status: good" | BBad => "      boot status: bad" | BUnknown => "      boot status: unknown" end]
      | None => []
      end)%list.
Definition no_esc_opt (o : option string) : Prop := match o with Some x => no_esc x | None => True end.
(** [sub] appears in [l] in one piece *)
Definition appears (sub l : list string) : Prop := exists a b, l = (a ++ sub ++ b)%list.
