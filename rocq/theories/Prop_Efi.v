(** Property theorems for the EFI backend (C13). Vocabulary: EfiSpec.v. *)
From Verif Require Import Base BaseLemmas Slot Efi EfiSpec EfiProofs UbootExamples.

(** C13: the reported primary is the first entry of the firmware's boot sequence
    that belongs to a configured slot. *)
Theorem C13_efi_get_primary : forall st slots s,
  efi_get_primary st slots = Ok s ->
  In s slots /\ exists pre b post, boot_sequence st = pre ++ b :: post /\ sl_bootname s = Some b /\
     forall n, In n pre -> forall t, In t slots -> sl_bootname t <> Some n.
Proof. exact efi_get_primary_ok. Qed.
Print Assumptions C13_efi_get_primary.

(** C13: set-primary via BootNext (the default) *)
Theorem C13_efi_set_primary_bootnext : forall st slots s b create st',
  efi_wf st -> no_stale st -> unique_names slots -> unique_bootnames slots -> In s slots -> sl_bootname s = Some b ->
  (forall c, create = Some c -> created st b c) ->
  efi_set_primary true st b create = Ok st' ->
  efi_get_primary st' slots = Ok s /\ boot_sequence st' = b :: order_names st /\ order_names st' = order_names st.
Proof. exact efi_set_primary_next_ok. Qed.
Print Assumptions C13_efi_set_primary_bootnext.

(** C13: set-primary via BootOrder; primary only if no BootNext overrides it *)
Theorem C13_efi_set_primary_bootorder : forall st slots s b create st',
  efi_wf st -> no_stale st -> unique_names slots -> unique_bootnames slots -> In s slots -> sl_bootname s = Some b ->
  (forall c, create = Some c -> created st b c) ->
  efi_set_primary false st b create = Ok st' ->
  order_names st' = b :: remove_name (order_names st) b /\
  next_name st' = next_name st /\
  efi_get_state st' b = Ok true /\
  (next_name st = None -> efi_get_primary st' slots = Ok s).
Proof. exact efi_set_primary_order_ok. Qed.
Print Assumptions C13_efi_set_primary_bootorder.

(** C13: effect of mark good / bad on BootOrder in general ... *)
Theorem C13_efi_set_state : forall st b good create st',
  efi_wf st -> no_stale st ->
  (forall c, create = Some c -> created st b c) ->
  efi_set_state st b good create = Ok st' ->
  order_names st' = (if good then [b] else []) ++ remove_name (order_names st) b /\
  next_name st' = next_name st.
Proof. exact efi_set_state_ok. Qed.
Print Assumptions C13_efi_set_state.

(** ... and, when names are unique and BootNext does not point to the slot, a slot
    marked bad disappears from the boot sequence.  The two hypotheses are
    necessary, see the refutations below. *)
Theorem C13_efi_mark_bad : forall st slots b create st',
  efi_wf st -> no_stale st -> NoDup (order_names st) -> next_name st <> Some b ->
  (forall c, create = Some c -> created st b c) ->
  efi_set_state st b false create = Ok st' ->
  order_names st' = filter (fun x => negb (String.eqb x b)) (order_names st) /\
  next_name st' = next_name st /\
  ~ In b (boot_sequence st') /\
  efi_get_state st' b <> Ok true /\
  (forall t, efi_get_primary st' slots = Ok t -> sl_bootname t <> Some b).
Proof. exact efi_mark_bad_ok. Qed.
Print Assumptions C13_efi_mark_bad.

(** C13 refuted without the BootNext hypothesis: a slot activated through BootNext
    and then marked bad (which is what a second installation does before it
    overwrites the slot) is reported bad, but is still primary and still what the
    firmware boots next. *)
Theorem C13_efi_mark_bad_bootnext_refuted :
  exists st slots s b st', efi_wf st /\ no_stale st /\ NoDup (order_names st) /\
    sl_bootname s = Some b /\ efi_set_state st b false None = Ok st' /\
    efi_get_state st' b = Ok false /\ efi_get_primary st' slots = Ok s /\ hd_error (boot_sequence st') = Some b.
Proof. exact efi_mark_bad_next_refuted. Qed.
Print Assumptions C13_efi_mark_bad_bootnext_refuted.

(** C13 refuted for duplicate names in BootOrder: mark bad removes only one. *)
Theorem C13_efi_mark_bad_duplicate_refuted :
  exists st b st', efi_wf st /\ no_stale st /\ next_name st = None /\
    efi_set_state st b false None = Ok st' /\ efi_get_state st' b = Ok true.
Proof. exact efi_mark_bad_dup_refuted. Qed.
Print Assumptions C13_efi_mark_bad_duplicate_refuted.

(** Determining the booted slot dereferences NULL if the firmware reports no
    BootCurrent (efi.c:632). *)
Theorem C13_efi_current_bootname_refuted :
  exists st slots, efi_wf st /\ no_stale st /\ efi_get_current_bootname st slots = Abort.
Proof. exact efi_current_crash_refuted. Qed.
Print Assumptions C13_efi_current_bootname_refuted.

(** After the last entry was taken out of BootOrder nothing works any more, not even marking good. *)
Theorem C13_efi_empty_order_refuted :
  exists st b st', efi_wf st /\ no_stale st /\ efi_set_state st b false None = Ok st' /\
    forall c g create ub, efi_set_state st' c g create = Err /\ efi_set_primary ub st' c create = Err /\ efi_get_state st' c = Err.
Proof. exact efi_empty_order_refuted. Qed.
Print Assumptions C13_efi_empty_order_refuted.

(** ** Non-vacuity *)
Definition ex_efi : efi := mkEfi [("0000", "A"); ("0001", "B"); ("0003", "usb")] ["0003"; "0000"; "0001"] None (Some "0000").

Example ex_efi_hyps :
  efi_wf ex_efi /\ no_stale ex_efi /\ NoDup (order_names ex_efi) /\ In exB ex_slots /\
  efi_set_primary true ex_efi "B" None = Ok (mkEfi (ef_entries ex_efi) (ef_order ex_efi) (Some "0001") (Some "0000")) /\
  efi_set_primary false ex_efi "B" None = Ok (mkEfi (ef_entries ex_efi) ["0001"; "0003"; "0000"] None (Some "0000")) /\
  efi_set_state ex_efi "A" false None = Ok (mkEfi (ef_entries ex_efi) ["0003"; "0001"] None (Some "0000")) /\
  efi_get_primary ex_efi ex_slots = Ok exA /\
  created ex_efi "C" (mkEfi (ef_entries ex_efi ++ [("0002", "C")]) (ef_order ex_efi) None (Some "0000")).
Proof.
  split; [repeat constructor; cbn; intuition discriminate|].
  split. { split; cbn; intros n; [intuition|discriminate]. }
  split; [repeat constructor; cbn; intuition discriminate|].
  split; [cbn; auto|]. repeat split; try reflexivity.
  exists "0002". repeat split; try reflexivity. cbn. intuition discriminate.
Qed.
