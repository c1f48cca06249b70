(** C87: the slots in the readable output of rauc status. *)
From Coq Require Import Permutation.
From Verif Require Import Base BaseLemmas Slot Install InstallSpec Listing ListingSpec ListingProofs.
Open Scope string_scope.

Theorem C87_how_often_a_slot_is_shown : forall slots s, unique_names slots -> wf_parents slots -> In s slots ->
  (sl_parent s = None -> shown slots (sl_name s) = 1) /\
  (forall q, sl_parent s = Some q -> (class_has_root slots s -> shown slots (sl_name s) = 2) /\ (~ class_has_root slots s -> shown slots (sl_name s) = 1)).
Proof. exact c87_shown_ok. Qed.
Print Assumptions C87_how_often_a_slot_is_shown.
Theorem C87_each_slot_once : forall slots, unique_names slots -> wf_parents slots -> unmixed slots -> Permutation (listing slots) slots.
Proof. exact c87_each_once_ok. Qed.
Print Assumptions C87_each_slot_once.
Theorem C87_children_below_their_parent : forall slots b, unique_names slots -> wf_parents slots -> In b (blocks slots) ->
  exists r c, b = r :: c /\ In r slots /\ (forall s, In s c <-> In s slots /\ sl_parent s = Some (sl_name r)) /\ NoDup (map sl_name b).
Proof. exact c87_blocks_ok. Qed.
Print Assumptions C87_children_below_their_parent.
Theorem C87_every_slot_has_a_line : forall utf8 d p s, unique_names (p_slots p) -> wf_parents (p_slots p) -> In s (p_slots p) -> In (first_line utf8 p s) (output utf8 d p).
Proof. exact c87_all_lines_ok. Qed.
Print Assumptions C87_every_slot_has_a_line.
Theorem C87_what_a_line_shows : forall utf8 p s, no_esc (sl_name s) -> no_esc (sl_device s) -> no_esc (sl_type s) ->
  plain false (first_line utf8 p s) = expected_line utf8 (is_primary p s) s (state_name (p_state p (sl_name s))).
Proof. exact c87_line_ok. Qed.
Print Assumptions C87_what_a_line_shows.
Theorem C87_lines_of_a_slot : forall utf8 p s, unique_names (p_slots p) -> wf_parents (p_slots p) -> In s (p_slots p) ->
  no_esc (sl_name s) -> no_esc (sl_device s) -> no_esc (sl_type s) -> no_esc_opt (sl_bootname s) -> no_esc_opt (p_descr p (sl_name s)) -> no_esc_opt (p_mount p (sl_name s)) ->
  appears (expected_line utf8 (is_primary p s) s (state_name (p_state p (sl_name s))) :: expected_more p s) (map (plain false) (output utf8 false p)).
Proof. exact c87_more_lines_ok. Qed.
Print Assumptions C87_lines_of_a_slot.
Theorem C87_header : forall utf8 d p,
  (forall b, In b (p_slots p) -> p_state p (sl_name b) = ST_BOOTED -> (forall s, In s (p_slots p) -> p_state p (sl_name s) = ST_BOOTED -> s = b) ->
     In ("Booted from:    " ++ sl_name b ++ " (" ++ p_bootslot p ++ ")")%string (output utf8 d p)) /\
  ((forall s, In s (p_slots p) -> p_state p (sl_name s) <> ST_BOOTED) -> In ("Booted from:    (null) (" ++ p_bootslot p ++ ")")%string (output utf8 d p)) /\
  (forall q b, p_primary p = Some q -> sl_bootname q = Some b -> In ("Activated: " ++ sl_name q ++ " (" ++ b ++ ")")%string (output utf8 d p)) /\
  (p_primary p = None -> In "Activated: none" (output utf8 d p)).
Proof. exact c87_header_ok. Qed.
Print Assumptions C87_header.
Theorem C87_only_the_primary_is_marked : forall utf8 d p, unique_names (p_slots p) -> wf_parents (p_slots p) -> (forall q, p_primary p = Some q -> In q (p_slots p)) ->
  (forall l, In l (marked utf8 (output utf8 d p)) -> exists q b, p_primary p = Some q /\ sl_bootname q = Some b /\ l = first_line utf8 p q) /\
  (forall q b, p_primary p = Some q -> sl_bootname q = Some b ->
     marked utf8 (output utf8 d p) = repeat (first_line utf8 p q) (shown (p_slots p) (sl_name q)) /\
     (sl_parent q = None -> marked utf8 (output utf8 d p) = [first_line utf8 p q])).
Proof. exact c87_mark_ok. Qed.
Print Assumptions C87_only_the_primary_is_marked.
Theorem C87_each_slot_once_always_refuted : ~ (forall slots, unique_names slots -> wf_parents slots -> Permutation (listing slots) slots).
Proof. exact c87_once_refuted. Qed.
Print Assumptions C87_each_slot_once_always_refuted.

(** two groups with a child each; the second is booted and primary *)
Definition x_a := mkSlot "rootfs.0" "rootfs" "/dev/a" "ext4" (Some "A") None false false.
Definition x_b := mkSlot "rootfs.1" "rootfs" "/dev/b" "ext4" (Some "B") None false false.
Definition x_c := mkSlot "appfs.0" "appfs" "/dev/c" "raw" None (Some "rootfs.0") false false.
Definition x_d := mkSlot "appfs.1" "appfs" "/dev/d" "raw" None (Some "rootfs.1") false false.
Definition x_slots := [x_d; x_a; x_c; x_b].
Definition x_print := mkPrint "Box" "" "1" "B" x_slots
  (fun n => if String.eqb n "rootfs.1" then ST_BOOTED else if String.eqb n "appfs.1" then ST_ACTIVE else ST_INACTIVE)
  (fun n => if String.eqb n "rootfs.1" then BGood else BBad) (fun _ => None) (fun n => if String.eqb n "appfs.1" then Some "/app" else None) (fun _ => []) (Some x_b) [mkRepo "net" "/var/net" ["type: files"]].
Example x_meets : unique_names x_slots /\ wf_parents x_slots /\ unmixed x_slots.
Proof.
  split; [| split].
  - unfold unique_names, x_slots. repeat constructor; cbn; intuition discriminate.
  - intros s p [<- | [<- | [<- | [<- | []]]]] E; try discriminate E; injection E as <-; [exists x_b | exists x_a]; (split; [cbn; intuition | split; reflexivity]).
  - intros s p [<- | [<- | [<- | [<- | []]]]] E (r & [<- | [<- | [<- | [<- | []]]]] & Pr & Cr); discriminate.
Qed.
Example x_blocks : blocks x_slots = [[x_a; x_c]; [x_b; x_d]].
Proof. reflexivity. Qed.
Example x_output : map (plain false) (output false false x_print) =
  ["=== System Info ==="; "Compatible:     Box"; "Variant:        "; "System Version: 1"; "Booted from:    rootfs.1 (B)"; "";
   "=== Bootloader ==="; "Activated: rootfs.1 (B)"; ""; "=== Slot States ===";
   "o [rootfs.0] (/dev/a, ext4, inactive)"; "      bootname: A"; "      boot status: bad"; "    [appfs.0] (/dev/c, raw, inactive)"; "";
   "x [rootfs.1] (/dev/b, ext4, booted)"; "      bootname: B"; "      boot status: good"; "    [appfs.1] (/dev/d, raw, active)"; "      mounted: /app"; "";
   "=== Artifact Repo States ==="; "[net] (/var/net)"; "  type: files"; ""].
Proof. reflexivity. Qed.
(** a class with a top-level slot and a child: the child is shown twice *)
Example x_mixed : map sl_name (listing [s_root; s_app0; s_app1]) = ["rootfs.0"; "appfs.0"; "appfs.0"; "appfs.1"].
Proof. reflexivity. Qed.
