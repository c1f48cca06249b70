(** C81 The server, the socket and the NBD device of a streamed bundle: nothing is left behind *)
From Verif Require Import Base NbdLife NbdLifeSpec NbdLifeProofs.

(** After rauc info, polling or an installation of a streamed bundle, whatever failed in between, no descriptor, server
    process or NBD device is left, as long as the kernel's netlink interface works. *)
Theorem C81_nothing_left : forall c e s r s', nothing_left s -> netlink_works e -> run c e s = Done r s' -> nothing_left s'.
Proof. exact c81_nothing_left_ok. Qed.
Print Assumptions C81_nothing_left.
Theorem C81_history : forall s s', streams netlink_works s s' -> nothing_left s -> nothing_left s'.
Proof. exact c81_history_ok. Qed.
Print Assumptions C81_history.
(** Without that assumption: no process is ever left; a descriptor or device only in these cases. *)
Theorem C81_left : forall c e s r s', nothing_left s -> run c e s = Done r s' ->
  (s_proc s' = NoServer \/ s_proc s' = Reaped) /\
  (s_open s' <> [] -> c = Install /\ set_up e /\ e_nl e 0 = false /\ (e_mount e = true -> e_umount e = true -> e_nl e 1 = false)) /\
  (s_dev s' <> None -> c = Install /\ ((e_netlink e = true /\ e_connect e = ConnLost) \/ removal_fails e 0)).
Proof. exact c81_left_ok. Qed.
Print Assumptions C81_left.
(** Only open descriptors are used and closed, none twice - in every run, also the ones that end in an abort or wait forever. *)
Theorem C81_descriptors : forall c e s, s_open s = [] -> exists es, calls_since s es (state_of (run c e s)) /\ calls [] es = Some (s_open (state_of (run c e s))).
Proof. exact c81_descriptors_ok. Qed.
Print Assumptions C81_descriptors.
Theorem C81_mount_descriptors : forall e s, s_open s = [] -> exists es, calls_since s es (state_of (run_mount e s)) /\ calls [] es = Some (s_open (state_of (run_mount e s))).
Proof. exact c81_mount_descriptors_ok. Qed.
Print Assumptions C81_mount_descriptors.
(** rauc waits forever for the server only if the device could not be removed and something still uses it. *)
Theorem C81_hangs : forall c e s s', s_open s = [] -> run c e s = Hangs s' -> c = Install /\ set_up e /\ kept_in_use e /\ removal_fails e 0 /\
  (e_mount e = true -> e_umount e = true -> e_nl e 0 = false -> removal_fails e 1) /\ (e_mount e = true -> e_dies e = false).
Proof. exact c81_hangs_ok. Qed.
Print Assumptions C81_hangs.
(** rauc aborts exactly if the server dies before it has answered. *)
Theorem C81_aborts : forall c e s, s_open s = [] -> (exists s', run c e s = Aborts s') <-> dies_early e.
Proof. exact c81_aborts_ok. Qed.
Print Assumptions C81_aborts.
Theorem C81_mounted : forall e s r s', s_open s = [] -> run Install e s = Done r s' -> r = true -> set_up e /\ e_mount e = true /\ s_proc s' = Reaped.
Proof. exact c81_mounted_ok. Qed.
Print Assumptions C81_mounted.
(** rauc mount leaves the server and the device running exactly as long as the bundle is mounted. *)
Theorem C81_mount : forall e s r s', nothing_left s -> run_mount e s = Done r s' ->
  if r then s_open s' = [] /\ s_dev s' <> None /\ s_proc s' = Running /\ server_ends s' = false /\
            s_dev (user_umount s') = None /\ server_ends (user_umount s') = true
  else netlink_works e -> nothing_left s'.
Proof. exact c81_mount_ok. Qed.
Print Assumptions C81_mount.
(** The server never runs with the privileges of root, unless the sandbox user is root. *)
Theorem C81_root : forall me db c, c_uid me = 0%N -> spawn_server me db = Some (Some c) ->
  exists u, db = Some u /\ (u_uid u <> 0%N -> c_uid c = u_uid u) /\ (u_gid u <> 0%N -> c_gid c = u_gid u) /\ (u_groups u <> [] -> c_groups c = u_groups u).
Proof. exact c81_root_ok. Qed.
Print Assumptions C81_root.
Theorem C81_user : forall me db, c_uid me <> 0%N ->
  (c_gid me <> 0%N -> spawn_server me db = Some (Some me)) /\
  (forall c, spawn_server me db = Some (Some c) -> c_uid c = c_uid me /\ (c_groups c = c_groups me)).
Proof. exact c81_user_ok. Qed.
Print Assumptions C81_user.
(** What does not hold. *)
Theorem C81_dead_server_refuted : ~ (forall c e s, nothing_left s -> e_connect e <> ConnLost -> exists r s', run c e s = Done r s' \/ run c e s = Hangs s').
Proof. exact c81_dead_server_refuted. Qed.
Print Assumptions C81_dead_server_refuted.
Theorem C81_no_leak_refuted : ~ (forall c e s r s', nothing_left s -> e_connect e <> ConnLost -> run c e s = Done r s' -> s_open s' = []).
Proof. exact c81_no_leak_refuted. Qed.
Print Assumptions C81_no_leak_refuted.
Theorem C81_no_hang_refuted : ~ (forall c e s s', nothing_left s -> run c e s <> Hangs s').
Proof. exact c81_no_hang_refuted. Qed.
Print Assumptions C81_no_hang_refuted.
Theorem C81_group_zero_refuted : ~ (forall me u, c_uid me <> 0%N -> u_groups u <> [] -> exists c, spawn_server me (Some u) = Some (Some c)).
Proof. exact c81_group_zero_refuted. Qed.
Print Assumptions C81_group_zero_refuted.

Example ex_meets : nothing_left st0 /\ netlink_works good_env /\ set_up good_env.
Proof. unfold nothing_left, netlink_works, set_up. cbn. repeat split; auto; discriminate. Qed.
Example ex_install : exists s', run Install good_env st0 = Done true s' /\
  s_log s' = [EPair 3 4; EClose 3; ESpawn; ETalk 4; ETalk 4; ETalk 4; EConnect 4; EOpen 5; EReconfigure; EClose 5; EDisconnect; EClose 4; EWait].
Proof. eexists. split; vm_compute; reflexivity. Qed.
(** opening the device fails: the socket goes back to the server's side *)
Example ex_noopen : exists s', run Install (mkEnv true true true CfgOk [RdOk; RdOk] true true ConnOk false true true false false true false (fun _ => true) (fun _ => true) true) st0 = Done false s' /\
  s_log s' = [EPair 3 4; EClose 3; ESpawn; ETalk 4; ETalk 4; ETalk 4; EConnect 4; EDisconnect; ESendDisc 4; EClose 4; EWait].
Proof. eexists. split; vm_compute; reflexivity. Qed.
Example ex_mount : exists s', run_mount good_env st0 = Done true s' /\ s_dev s' = Some (mkNbddev true true).
Proof. eexists. split; vm_compute; reflexivity. Qed.
Example ex_twice : exists s', streams netlink_works st0 s' /\ s_next s' = 8.
Proof.
  assert (G : netlink_works good_env) by (unfold netlink_works; cbn; repeat split; discriminate).
  eexists. split; [eapply (Again _ _ Install); [exact G|vm_compute; reflexivity|eapply (Again _ _ Info); [exact G|vm_compute; reflexivity|apply Idle]]|]. reflexivity.
Qed.
Example ex_dies : dies_early (mkEnv true true true CfgOk [RdOk; RdDies] true true ConnOk true true true false false true false (fun _ => true) (fun _ => true) true).
Proof. unfold dies_early. cbn. repeat split. right. split; [reflexivity|]. exists 1, []. reflexivity. Qed.
Example ex_root : spawn_server (mkCred 0 0 [0; 4]%N) (Some (mkUser 999 998 [998; 20]%N)) = Some (Some (mkCred 999 998 [998; 20]%N)).
Proof. reflexivity. Qed.
