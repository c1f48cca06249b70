(** Property theorems for the detection of the booted slot (C51).
    Vocabulary: BootnameSpec.v. *)
From Verif Require Import Base BaseLemmas Slot Image Handlers Install InstallSpec InstallProofs Efi Bootname BootnameSpec BootnameProofs.

(** C51: rauc.slot= decides, whatever the bootloader and root= say *)
Theorem C51_rauc_slot : forall realpath bl slots c v,
  none_contains "rauc.external" (params c) -> none_contains "root=/dev/nfs" (params c) ->
  only_at_start "rauc.slot=" (params c) -> first_value ["rauc.slot="] (params c) v ->
  get_bootname realpath bl slots (Some c) = Ok (Some v).
Proof. exact rauc_slot_ok. Qed.
Print Assumptions C51_rauc_slot.
Example C51_rauc_slot_ex :
  let c := "console=ttyS0,115200 rauc.slot=A root=/dev/sda2 quiet" in
  params c = ["console=ttyS0,115200"; "rauc.slot=A"; "root=/dev/sda2"; "quiet"] /\
  none_contains "rauc.external" (params c) /\ none_contains "root=/dev/nfs" (params c) /\
  only_at_start "rauc.slot=" (params c) /\ first_value ["rauc.slot="] (params c) "A" /\
  get_bootname (fun _ => None) BlBarebox exAB (Some c) = Ok (Some "A").
Proof.
  cbv zeta. split; [reflexivity|].
  split. { intros w Hw C. apply strstr_contains in C. cbn in Hw. intuition (subst; discriminate). }
  split. { intros w Hw C. apply strstr_contains in C. cbn in Hw. intuition (subst; discriminate). }
  split.
  { intros w a b Hw E. cbn in Hw. destruct a as [|x a]; [reflexivity|exfalso].
    assert (strstr (match w with String _ r => r | EmptyString => EmptyString end) "rauc.slot=" = true) as Q.
    { rewrite E. cbn [append]. apply strstr_contains. exists a, b. reflexivity. }
    destruct Hw as [<-|[<-|[<-|[<-|[]]]]]; discriminate. }
  split; [|reflexivity].
  exists ["console=ttyS0,115200"], "rauc.slot=A", ["root=/dev/sda2"; "quiet"], "rauc.slot=".
  split; [reflexivity|]. split; [now left|]. split; [split; [reflexivity|discriminate]|].
  intros x k y [<-|[]] [<-|[]] [H _]. discriminate.
Qed.

(** C51: rauc.external or an NFS root: no slot is booted *)
Theorem C51_external : forall realpath bl slots c,
  (exists w, In w (params c) /\ (contains "rauc.external" w \/ contains "root=/dev/nfs" w)) ->
  get_bootname realpath bl slots (Some c) = Ok (Some "_external_").
Proof. exact external_ok. Qed.
Print Assumptions C51_external.
Example C51_external_ex : exists w, In w (params "rauc.external quiet") /\ (contains "rauc.external" w \/ contains "root=/dev/nfs" w).
Proof. exists "rauc.external". split; [now left|left]. now exists "", "". Qed.

(** C51: otherwise the bootloader decides: barebox, ... *)
Theorem C51_barebox : forall realpath slots c v,
  not_explicit (params c) ->
  only_at_start "bootstate.active=" (params c) -> only_at_start "bootchooser.active=" (params c) ->
  first_value ["bootstate.active="; "bootchooser.active="] (params c) v ->
  get_bootname realpath BlBarebox slots (Some c) = Ok (Some v).
Proof. exact barebox_ok. Qed.
Print Assumptions C51_barebox.
Example C51_barebox_ex :
  get_bootname (fun _ => None) BlBarebox exAB (Some "root=/dev/sda2 bootchooser.active=A") = Ok (Some "A").
Proof. reflexivity. Qed.

(** ... the custom backend, ... *)
Theorem C51_custom : forall realpath slots c b,
  not_explicit (params c) -> b <> "" ->
  get_bootname realpath (BlCustom (Some b) true) slots (Some c) = Ok (Some b).
Proof. exact custom_ok. Qed.
Print Assumptions C51_custom.

(** ... EFI (BootCurrent), ... *)
Theorem C51_efi : forall realpath st slots c s num n a b,
  not_explicit (params c) ->
  ef_order st <> [] -> ef_current st = Some num ->
  ef_entries st = (a ++ (num, n) :: b)%list -> (forall e, In e a -> fst e <> num) ->
  In s slots -> sl_bootname s = Some n ->
  get_bootname realpath (BlEfi st) slots (Some c) = Ok (Some n).
Proof. exact efi_ok. Qed.
Print Assumptions C51_efi.
Example C51_efi_ex :
  let st := mkEfi [("0000", "A"); ("0001", "B")] ["0000"; "0001"] None (Some "0001") in
  get_bootname (fun _ => None) (BlEfi st) exAB (Some "root=/dev/sda1") = Ok (Some "B") /\
  not_explicit (params "root=/dev/sda1").
Proof.
  split; [reflexivity|]. change (params "root=/dev/sda1") with ["root=/dev/sda1"].
  split. { intros w [<-|[]] C. apply strstr_contains in C. discriminate. }
  split. { intros w [<-|[]] C. apply strstr_contains in C. discriminate. }
  split.
  { intros w a b [<-|[]] E. exfalso.
    assert (strstr "root=/dev/sda1" "rauc.slot=" = true) by (apply strstr_contains; now exists a, b). discriminate. }
  intros x y [<-|[]] [H _]. discriminate.
Qed.

(** ... and last the root device *)
Theorem C51_root : forall realpath bl slots c v p,
  not_explicit (params c) -> bl_silent bl slots c ->
  only_at_start "root=" (params c) -> only_at_start "systemd.verity_root_data=" (params c) ->
  (first_value ["root="] (params c) v \/
   no_value "root=" (params c) /\ first_value ["systemd.verity_root_data="] (params c) v) ->
  root_path v p ->
  get_bootname realpath bl slots (Some c) = Ok (Some (realdev_of realpath p)).
Proof. exact root_ok. Qed.
Print Assumptions C51_root.
Example C51_root_ex :
  root_path "PARTUUID=0815-01" "/dev/disk/by-partuuid/0815-01" /\ root_path "/dev/sda1" "/dev/sda1" /\
  get_bootname (fun p => if String.eqb p "/dev/disk/by-partuuid/0815-01" then Some "/dev/sda1" else Some p)
    BlOther exAB (Some "root=PARTUUID=0815-01 ro") = Ok (Some "/dev/sda1").
Proof.
  split; [exact (RpPartuuid "0815-01" eq_refl)|]. split; [now constructor|]. reflexivity.
Qed.

(** C51: without any information nothing is assumed, and installations are refused *)
Theorem C51_unknown : forall realpath bl slots c,
  not_explicit (params c) -> bl_silent bl slots c ->
  only_at_start "root=" (params c) -> only_at_start "systemd.verity_root_data=" (params c) ->
  no_value "root=" (params c) -> no_value "systemd.verity_root_data=" (params c) ->
  get_bootname realpath bl slots (Some c) = Ok None /\
  forall realdev, determine_slot_states realdev None slots = Err.
Proof. exact unknown_ok. Qed.
Print Assumptions C51_unknown.
Theorem C51_no_cmdline : forall realpath bl slots, 
  match bl with BlCustom _ _ | BlEfi _ => False | _ => True end ->
  get_bootname realpath bl slots None = Ok None.
Proof. exact no_cmdline_ok. Qed.
Print Assumptions C51_no_cmdline.

(** C51: --override-boot-slot *)
Theorem C51_override : forall b realpath bl slots c, context_bootslot (Some b) realpath bl slots c = Ok (Some b).
Proof. exact override_ok. Qed.
Print Assumptions C51_override.

(** C51 with C01: the slot named by rauc.slot= and its children are never written *)
Theorem C51_targets : forall realpath bl c v slots booted bs st per_slot info sysvariant imgs repos aok ps,
  unique_names slots -> wf_parents slots ->
  none_contains "rauc.external" (params c) -> none_contains "root=/dev/nfs" (params c) ->
  only_at_start "rauc.slot=" (params c) -> first_value ["rauc.slot="] (params c) v ->
  In booted slots -> sl_parent booted = None ->
  (sl_bootname booted = Some v \/ sl_name booted = v) ->
  (forall s, In s slots -> sl_bootname s = Some v \/ sl_name s = v \/ realdev_of realpath (sl_device s) = v -> s = booted) ->
  get_bootname realpath bl slots (Some c) = Ok bs ->
  determine_slot_states (realdev_of realpath) bs slots = Ok st ->
  make_plans sysvariant imgs (determine_target_group per_slot st info slots) repos aok = Ok ps ->
  forall s, In s (written ps) -> sl_name s <> sl_name booted /\ sl_parent s <> Some (sl_name booted).
Proof. exact targets_ok. Qed.
Print Assumptions C51_targets.
Example C51_targets_ex :
  exists st ps,
  get_bootname (fun d => Some d) BlOther exAB (Some "rauc.slot=A root=/dev/sda1") = Ok (Some "A") /\
  determine_slot_states (realdev_of (fun d => Some d)) (Some "A") exAB = Ok st /\
  make_plans None [ex_img "rootfs"] (determine_target_group false st ex_info exAB) [] true = Ok ps /\
  written ps = [exB].
Proof. eexists. eexists. repeat split; reflexivity. Qed.

(** C51 is not what the manual says about the order of the parameters ... *)
Theorem C51_order_refuted :
  exists c slots bs st ps booted,
    unique_names slots /\ wf_parents slots /\ unique_bootnames slots /\
    params c = ["rauc.slot=A"; "rauc.external"] /\
    In booted slots /\ sl_bootname booted = Some "A" /\ sl_parent booted = None /\
    get_bootname (fun _ => None) BlOther slots (Some c) = Ok bs /\
    determine_slot_states (fun d => d) bs slots = Ok st /\
    make_plans None [ex_img "rootfs"] (determine_target_group false st ex_info slots) [] true = Ok ps /\
    In booted (written ps).
Proof. exact order_refuted. Qed.
Print Assumptions C51_order_refuted.

(** ... and the parameters are searched for anywhere *)
Theorem C51_substring_refuted :
  exists c slots bs st ps booted,
    unique_names slots /\ wf_parents slots /\ unique_bootnames slots /\
    params c = ["rauc.slot=A"; "systemd.mask=rauc.external.service"] /\
    In booted slots /\ sl_bootname booted = Some "A" /\ sl_parent booted = None /\
    get_bootname (fun _ => None) BlOther slots (Some c) = Ok bs /\
    determine_slot_states (fun d => d) bs slots = Ok st /\
    make_plans None [ex_img "rootfs"] (determine_target_group false st ex_info slots) [] true = Ok ps /\
    In booted (written ps).
Proof. exact substring_refuted. Qed.
Print Assumptions C51_substring_refuted.
Theorem C51_root_suffix_refuted :
  exists c slots bs st ps booted,
    unique_names slots /\ wf_parents slots /\ unique_bootnames slots /\
    params c = ["rescueroot=/dev/sda1"; "root=/dev/sda2"] /\
    In booted slots /\ sl_device booted = "/dev/sda2" /\ sl_parent booted = None /\
    get_bootname (fun d => Some d) BlOther slots (Some c) = Ok bs /\
    determine_slot_states (fun d => d) bs slots = Ok st /\
    make_plans None [ex_img "rootfs"] (determine_target_group false st ex_info slots) [] true = Ok ps /\
    In booted (written ps).
Proof. exact root_suffix_refuted. Qed.
Print Assumptions C51_root_suffix_refuted.

(** C51: a missing BootCurrent variable is fatal *)
Theorem C51_efi_abort_refuted :
  exists c slots st,
    unique_names slots /\ wf_parents slots /\ unique_bootnames slots /\
    ef_entries st = [("0000", "A"); ("0001", "B")] /\ ef_order st = ["0000"; "0001"] /\ ef_current st = None /\
    params c = ["root=/dev/sda1"] /\
    get_bootname (fun d => Some d) (BlEfi st) slots (Some c) = Abort.
Proof. exact efi_abort_refuted. Qed.
Print Assumptions C51_efi_abort_refuted.
