(** C67 The EFI backend and efibootmgr: what the tool prints is understood, what rauc asks for is what was meant *)
From Verif Require Import Base BaseLemmas Slot Efi EfiSpec ContextSpec Custom CustomSpec EfiText EfiTextSpec EfiTextProofs.

(** The output of efibootmgr for any boot variables it can show gives exactly these variables. *)
Theorem C67_output : forall st out, showable st -> printed st out -> parse_output out = efi_bootorder_get st.
Proof. exact c67_parse_ok. Qed.
Print Assumptions C67_output.
Theorem C67_read : forall W (run : program W) view w slots b, efi_tool run view -> showable (view w) ->
  (forall w' r, text_get_primary run slots w = (w', r) -> view w' = view w /\ (r = Err \/ r = efi_get_primary (view w) slots)) /\
  (forall w' r, text_get_state run b w = (w', r) -> view w' = view w /\ (r = Err \/ r = efi_get_state (view w) b)) /\
  (forall w' r, text_get_current run slots w = (w', r) -> view w' = view w /\ (r = Err \/ r = efi_get_current_bootname (view w) slots)).
Proof. exact c67_read_ok. Qed.
Print Assumptions C67_read.
(** With a tool that does what its manual says but may fail at any call: setting the primary slot or the state either
    has the effect stated in C13, or reports an error and leaves what the firmware boots as it was. *)
Theorem C67_primary : forall W (run : program W) view use_next s w w' r, efi_tool run view -> showable (view w) -> efi_wf (view w) -> no_stale (view w) ->
  label_ok (sn_bootname s) -> text_set_primary run use_next s w = (w', r) ->
  (r = Ok tt /\
   (if use_next then boot_sequence (view w') = sn_bootname s :: order_names (view w) /\ order_names (view w') = order_names (view w)
    else order_names (view w') = sn_bootname s :: remove_name (order_names (view w)) (sn_bootname s) /\ next_name (view w') = next_name (view w))) \/
  (r = Err /\ boot_sequence (view w') = boot_sequence (view w)).
Proof. exact c67_primary_ok. Qed.
Print Assumptions C67_primary.
Theorem C67_state : forall W (run : program W) view good s w w' r, efi_tool run view -> showable (view w) -> efi_wf (view w) -> no_stale (view w) ->
  label_ok (sn_bootname s) -> text_set_state run s good w = (w', r) ->
  (r = Ok tt /\ next_name (view w') = next_name (view w) /\
   order_names (view w') = (if good then [sn_bootname s] else []) ++ remove_name (order_names (view w)) (sn_bootname s)) \/
  (r = Err /\ boot_sequence (view w') = boot_sequence (view w)).
Proof. exact c67_state_ok. Qed.
Print Assumptions C67_state.
Theorem C67_primary_as_c13 : forall W (run : program W) view use_next s w w' r, efi_tool run view -> showable (view w) -> label_ok (sn_bootname s) ->
  text_set_primary run use_next s w = (w', r) ->
  (r = Ok tt /\ exists create, created_by (view w) (sn_bootname s) create /\ efi_set_primary use_next (view w) (sn_bootname s) create = Ok (view w')) \/
  (r = Err /\ maybe_created (view w) (sn_bootname s) (view w')).
Proof. exact c67_set_primary_ok. Qed.
Print Assumptions C67_primary_as_c13.
Theorem C67_state_as_c13 : forall W (run : program W) view good s w w' r, efi_tool run view -> showable (view w) -> label_ok (sn_bootname s) ->
  text_set_state run s good w = (w', r) ->
  (r = Ok tt /\ exists create, created_by (view w) (sn_bootname s) create /\ efi_set_state (view w) (sn_bootname s) good create = Ok (view w')) \/
  (r = Err /\ maybe_created (view w) (sn_bootname s) (view w')).
Proof. exact c67_set_state_ok. Qed.
Print Assumptions C67_state_as_c13.
(** If the tool does not fail and the entry is there, nothing fails. *)
Theorem C67_succeeds : forall W (run : program W) view use_next good s w n,
  efi_tool run view ->
  (forall w args, args = [] \/ (exists o, args = ["--bootorder"; o]) \/ (exists m, args = ["--bootnext"; m]) -> exists w' out, run w args = (w', Ran out (Some 0))) ->
  showable (view w) -> ef_order (view w) <> [] -> In (n, sn_bootname s) (ef_entries (view w)) ->
  (exists w', text_set_primary run use_next s w = (w', Ok tt)) /\ (exists w', text_set_state run s good w = (w', Ok tt)) /\
  (exists w', text_get_state run (sn_bootname s) w = (w', efi_get_state (view w) (sn_bootname s))).
Proof. exact c67_live_ok. Qed.
Print Assumptions C67_succeeds.
(** The program is run with no other arguments than these; in particular a new entry names the slot's own disk, partition,
    loader and command line. *)
Theorem C67_calls : forall W (run run' : program W) use_next good s w,
  (forall w args, call_for s args -> run' w args = run w args) ->
  text_set_primary run' use_next s w = text_set_primary run use_next s w /\ text_set_state run' s good w = text_set_state run s good w.
Proof. exact c67_calls_ok. Qed.
Print Assumptions C67_calls.
(** Labels the output cannot show. *)
Theorem C67_empty_label_refuted : exists (run : program efi) st s st', efi_tool run (fun x => x) /\ efi_wf st /\ no_stale st /\ label_ok (sn_bootname s) /\
  text_set_primary run false s st = (st', Ok tt) /\ In "0002" (ef_order st) /\ In ("0002", "") (ef_entries st') /\ ~ In "0002" (ef_order st').
Proof. exact c67_empty_label_refuted. Qed.
Print Assumptions C67_empty_label_refuted.
Theorem C67_newline_label_refuted : exists (run : program efi) st b, efi_tool run (fun x => x) /\ efi_wf st /\ no_stale st /\
  ~ In b (order_names st) /\ text_get_state run b st = (st, Ok true).
Proof. exact c67_newline_label_refuted. Qed.
Print Assumptions C67_newline_label_refuted.

Example ex_tool : efi_tool demo_run (fun st => st) /\ (forall w args, args = [] \/ (exists o, args = ["--bootorder"; o]) \/ (exists m, args = ["--bootnext"; m]) -> exists w' out, demo_run w args = (w', Ran out (Some 0))).
Proof. split; [exact c67_demo | exact c67_demo_live]. Qed.
Definition ex_st : efi := mkEfi [("0000", "system0"); ("000A", "UEFI Shell")] ["000A"; "0000"] None (Some "0000").
Example ex_meets : showable ex_st /\ efi_wf ex_st /\ no_stale ex_st /\ label_ok "system1".
Proof.
  split; [|split; [|split]].
  - split; [|split; [|split]]; cbn.
    + repeat constructor; discriminate.
    + repeat constructor.
    + discriminate.
    + intros n H. injection H as <-. split; reflexivity.
  - repeat constructor; cbn; intuition discriminate.
  - split; cbn; intros n; [intuition|discriminate].
  - repeat split; discriminate.
Qed.
(** the entry is created, then put first *)
Example ex_set : exists st', text_set_primary demo_run false (mkEfislot "system1" (Some ("/dev/sda", "3")) (Some "\linux.efi") (Some "root=x")) ex_st = (st', Ok tt) /\
  ef_order st' = ["0001"; "000A"; "0000"] /\ boot_sequence st' = ["system1"; "UEFI Shell"; "system0"].
Proof. eexists. repeat split; vm_compute; reflexivity. Qed.
Definition tab : string := String "009" "".
Definition nl : string := String "010" "".
(** output of a newer version *)
Example ex_out : parse_output ("BootNext: 0001" ++ nl ++ "BootCurrent: 0002" ++ nl ++ "Timeout: 1 seconds" ++ nl ++ "BootOrder: 0002,0001,0007" ++ nl ++
     "Boot0001* system0" ++ tab ++ "HD(1,GPT,x)/File(\a.efi)" ++ nl ++ "Boot0002  UEFI OS" ++ nl ++ "MirroredPercentageAbove4G: 0.00" ++ nl) =
  Ok (mkInfo [("0002", "UEFI OS"); ("0001", "system0")] [("0001", "system0"); ("0002", "UEFI OS")] (Some ("0001", "system0")) (Some ("0002", "UEFI OS"))).
Proof. vm_compute. reflexivity. Qed.
(** a program which only accepts the call for the slot's own partition *)
Example ex_calls : exists st', text_set_primary (fun st args => if List.existsb (String.eqb "/dev/sdb") args then (st, NotStarted) else demo_run st args) false
    (mkEfislot "system1" (Some ("/dev/sda", "3")) (Some "\linux.efi") (Some "root=x")) ex_st = (st', Ok tt).
Proof. eexists. vm_compute. reflexivity. Qed.
