(** C79: slots mounted by others. *)
From Verif Require Import InstallRunExamples InstallProofs BaseLemmas.
From Verif Require Import Base Slot Image Handlers Install InstallSpec InstallRun InstallRunSpec MountPoints MountPointsSpec MountPointsProofs.
Open Scope list_scope.

Theorem C79_detects : forall sys slots table e ok e' s,
  unique_names slots -> unique_devices slots -> plain_table sys table -> In s slots ->
  update_external_mounts sys slots table e = (ok, e') ->
  ok = true /\
  (forall p, e' (sl_name s) = Some p <->
     exists before m after, table = before ++ m :: after /\ me_path m = p /\ mounts_device sys m (sl_device s) /\
       forall x, In x before -> ~ mounts_device sys x (sl_device s)).
Proof. exact c79_detects_ok. Qed.
Print Assumptions C79_detects.
Theorem C79_fails : forall sys slots table e,
  (forall m, In m table -> ordinary (me_device m) \/ exists n, loop_device n (me_device m)) ->
  (fst (update_external_mounts sys slots table e) = false <->
   exists m n, In m table /\ loop_device n (me_device m) /\ sys ("loop" ++ n)%string = None).
Proof. exact c79_fails_ok. Qed.
Print Assumptions C79_fails.
Theorem C79_not_written : forall B (bk : backend B) cf inp (w : world B) r es realdev bootslot booted d c sys table e e',
  unique_names (cf_slots cf) -> wf_parents (cf_slots cf) -> unique_devices (cf_slots cf) -> plain_table sys table ->
  determine_slot_states realdev (Some bootslot) (cf_slots cf) = Ok (in_states inp) ->
  In booted (cf_slots cf) -> in_states inp (sl_name booted) = ST_BOOTED -> sl_parent booted = None ->
  update_external_mounts sys (cf_slots cf) table e = (true, e') ->
  (forall n, e' n <> None -> ck_mounted (in_checks inp) n = true) ->
  install bk cf inp w = (r, es) -> In (EWrite d c) es ->
  (exists m, In m table /\ mounts_device sys m d) ->
  exists s i, In s (cf_slots cf) /\ sl_device s = d /\ ck_allow_mounted (in_checks inp) (sl_name s) = true /\
    In i (in_images inp) /\ im_class i = sl_class s /\ im_install i = true.
Proof. exact c79_not_written_ok. Qed.
Print Assumptions C79_not_written.
Theorem C79_alias_refuted : exists (real : string -> string) sys slots table e' s m,
  unique_names slots /\ unique_devices slots /\ plain_table sys table /\ In s slots /\ In m table /\
  real (me_device m) = real (sl_device s) /\
  update_external_mounts sys slots table (fun _ => None) = (true, e') /\ e' (sl_name s) = None.
Proof. exact c79_alias_refuted. Qed.
Print Assumptions C79_alias_refuted.
Theorem C79_shared_refuted : exists sys slots table e' s m,
  unique_names slots /\ plain_table sys table /\ In s slots /\ In m table /\ mounts_device sys m (sl_device s) /\
  update_external_mounts sys slots table (fun _ => None) = (true, e') /\ e' (sl_name s) = None.
Proof. exact c79_shared_refuted. Qed.
Print Assumptions C79_shared_refuted.
Theorem C79_unrelated_refuted : exists sys slots table,
  unique_names slots /\ unique_devices slots /\ (forall s m, In s slots -> In m table -> me_device m <> sl_device s) /\
  (forall m n, In m table -> ~ loop_device n (me_device m)) /\
  fst (update_external_mounts sys slots table (fun _ => None)) = false.
Proof. exact c79_unrelated_refuted. Qed.
Print Assumptions C79_unrelated_refuted.

(** a mount table with a slot mounted twice, a loop device with partitions and other mounts *)
Definition ex_slots : list slot := [mp_slot "rootfs.0" "/dev/sda1"; mp_slot "rootfs.1" "/dev/sda2"; mp_slot "data.0" "/srv/data.img"].
Definition ex_table : list mentry := [mkMentry "proc" "/proc"; mkMentry "/dev/sda1" "/"; mkMentry "/dev/sda1" "/mnt/bind"; mkMentry "/dev/loop12p1" "/data"].
Definition ex_sys (n : string) : option string := if String.eqb n "loop12" then Some ("/srv/data.img" ++ String "010"%char "")%string else None.
Example C79_example :
  let r := update_external_mounts ex_sys ex_slots ex_table (fun n => if String.eqb n "rootfs.1" then Some "/stale" else None) in
  fst r = true /\ snd r "rootfs.0" = Some "/" /\ snd r "rootfs.1" = None /\ snd r "data.0" = Some "/data" /\
  unique_names ex_slots /\ unique_devices ex_slots /\ loop_device "12" "/dev/loop12p1".
Proof.
  split; [reflexivity|]. split; [reflexivity|]. split; [reflexivity|]. split; [reflexivity|].
  split; [repeat constructor; cbn; intuition discriminate|]. split; [repeat constructor; cbn; intuition discriminate|].
  split; [apply chars_all_digits; [discriminate|reflexivity]|]. right. exists "1". split; [apply chars_all_digits; [discriminate|reflexivity]|reflexivity].
Qed.
(** a name that only begins like a loop device *)
Example C79_example_control : ordinary "/dev/loop-control".
Proof. apply loop_name_none. reflexivity. Qed.
Example C79_example_table : plain_table ex_sys ex_table.
Proof.
  intros m [<-|[<-|[<-|[<-|[]]]]].
  - left. apply loop_name_none. reflexivity.
  - left. apply loop_name_none. reflexivity.
  - left. apply loop_name_none. reflexivity.
  - right. exists "12", ("/srv/data.img" ++ String "010"%char "")%string. split; [|reflexivity].
    split; [apply chars_all_digits; [discriminate|reflexivity]|]. right. exists "1". split; [apply chars_all_digits; [discriminate|reflexivity]|reflexivity].
Qed.
(** a run that writes a mounted slot: appfs.1 is mounted, has allow-mounted, and the image has an
    install hook; without the hook the installation is refused *)
Definition ex_mounted : list mentry := [mkMentry "/dev/a" "/"; mkMentry "/dev/d" "/app"].
Definition ex_hook_img (h : bool) : image := mkImage "appfs" None None (Some "00") 1 (Some "x.ext4") (Some "ext4") true false h false [] [] [].
Definition ex_inp (h : bool) : inputs :=
  mkInputs InstallRunExamples.exr_states InstallProofs.ex_info [InstallProofs.ex_img "rootfs"; ex_hook_img h]
    (mkChecks (fun _ => true) (fun _ => true)
       (fun n => match snd (update_external_mounts (fun _ => None) InstallProofs.ex_tree ex_mounted (fun _ => None)) n with Some _ => true | None => false end)
       (fun n => String.eqb n "appfs.1") (fun _ => true)) true InstallRunExamples.exr_rout.
Example C79_example_run :
  let run h := install InstallRunExamples.exr_bk InstallRunExamples.exr_cf (ex_inp h) InstallRunExamples.exr_w0 in
  fst (update_external_mounts (fun _ => None) InstallProofs.ex_tree ex_mounted (fun _ => None)) = true /\
  In (EWrite "/dev/d" Torn) (snd (run true)) /\ fst (run true) = Ok tt /\ fst (run false) = Err /\ snd (run false) = [] /\
  plain_table (fun _ => None) ex_mounted.
Proof.
  split; [reflexivity|]. split; [vm_compute; tauto|]. split; [vm_compute; reflexivity|]. split; [vm_compute; reflexivity|]. split; [vm_compute; reflexivity|].
  intros m [<-|[<-|[]]]; left; apply loop_name_none; reflexivity.
Qed.
