(** C61: a bundle on its way to a mounted file system and back. *)
From Verif Require Import Base DmStack DmStackSpec DmStackProofs DmStackTop DmStackThms.

Theorem C61_failure_gives_everything_back : forall o b pre e,
  mounts o b pre = Failed e -> releases_work o -> w_k (after_mount o b pre) = idle.
Proof. exact c61_failure_ok. Qed.
Print Assumptions C61_failure_gives_everything_back.
Theorem C61_mounted_stack : forall o b pre,
  mounts o b pre = Mounted ->
  (0 < b_size b)%Z /\ (exists p p', holds b p p' (w_k (after_mount o b pre))) /\
  (releases_work o -> holds b true true (w_k (after_mount o b pre))).
Proof. exact c61_mounted_ok. Qed.
Print Assumptions C61_mounted_stack.
Theorem C61_unmounting_gives_everything_back : forall o b pre,
  mounts o b pre = Mounted -> releases_work o ->
  fst (umount_bundle o (after_mount o b pre)) = true /\ w_k (snd (umount_bundle o (after_mount o b pre))) = idle.
Proof. exact c61_umount_ok. Qed.
Print Assumptions C61_unmounting_gives_everything_back.
Theorem C61_failed_unmount_changes_nothing : forall o b pre,
  mounts o b pre = Mounted -> fst (umount_bundle o (after_mount o b pre)) = false ->
  w_k (snd (umount_bundle o (after_mount o b pre))) = w_k (after_mount o b pre).
Proof. exact c61_umount_failure_ok. Qed.
Print Assumptions C61_failed_unmount_changes_nothing.
Theorem C61_checked_before_mounting : forall o b pre t1 x f r t2,
  w_tr (after_mount o b pre) = t1 ++ (KMount x f, r) :: t2 ->
  f = ["MS_NODEV"; "MS_NOSUID"; "MS_RDONLY"] /\ ready b pre t1 x /\ count is_mount t1 = 0 /\ count is_mount t2 = 0.
Proof. exact c61_ready_ok. Qed.
Print Assumptions C61_checked_before_mounting.
Theorem C61_unverified_is_never_mounted : forall o b pre,
  b_verification_disabled b = false ->
  b_signature_verified b = false \/ (b_format b = Plain /\ b_payload_verified b = false) ->
  mounts o b pre <> Mounted /\ forall x f r, ~ In (KMount x f, r) (w_tr (after_mount o b pre)).
Proof. exact c61_unverified_ok. Qed.
Print Assumptions C61_unverified_is_never_mounted.
Theorem C61_ten_tries : forall o b pre, count is_free (w_tr (after_mount o b pre)) <= 10.
Proof. exact c61_tries_ok. Qed.
Print Assumptions C61_ten_tries.
Theorem C61_failure_without_error : forall o b pre,
  (0 < b_size b < 2 ^ 63)%Z -> (b_verity_size b < 2 ^ 64)%N ->
  mounts o b pre = Failed false -> b_size b = Z.of_N (b_verity_size b).
Proof. exact c61_error_ok. Qed.
Print Assumptions C61_failure_without_error.
Theorem C61_every_failure_has_an_error_refuted :
  ~ (forall o b pre e, mounts o b pre = Failed e -> e = true).
Proof. exact c61_error_always_refuted. Qed.
Print Assumptions C61_every_failure_has_an_error_refuted.

(** A kernel where everything works: all three formats are mounted, so the hypotheses of the theorems are met. *)
Example C61_all_good : releases_work all_good /\
  mounts all_good (ex_bundle Plain 0) false = Mounted /\ mounts all_good (ex_bundle FVerity 4096) true = Mounted /\
  mounts all_good (ex_bundle FCrypt 4096) true = Mounted.
Proof. split; [|vm_compute; auto]. intros h a. destruct a as [| | | | | | | | | | | [|] | | | | | | | | | | | | |]; cbn; intros H; try discriminate; reflexivity. Qed.
Example C61_stack : w_k (after_mount all_good (ex_bundle FCrypt 4096) true) =
  {| k_loops := [(7%N, {| l_limit := Some 12288%Z; l_ro := true; l_auto := true |})]; k_fds := [];
     k_dms := [{| d_kind := Crypt; d_minor := 4; d_table := Some {| t_sectors := 16;
                  t_params := "aes-cbc-plain64 0123 0 /dev/dm-3 0 1 sector_size:4096"; t_lower := DDm 3; t_ro := true |};
                  d_active := true; d_pending := true |};
               {| d_kind := Verity; d_minor := 3; d_table := Some {| t_sectors := 16;
                  t_params := "1 /dev/loop7 /dev/loop7 4096 4096 2 2 sha256 abcd ef01"; t_lower := DLoop 7; t_ro := true |};
                  d_active := true; d_pending := true |}];
     k_mnts := [{| m_dev := DDm 4; m_flags := ["MS_NODEV"; "MS_NOSUID"; "MS_RDONLY"] |}]; k_dir := true |}.
Proof. vm_compute. reflexivity. Qed.
(** The first block of the crypt layer cannot be read: the run fails after both layers existed. *)
Definition crypt_unreadable (h : hist) (a : kact) : ans := match a with KDmRead 4 => Bad | _ => all_good h a end.
Example C61_failing_case : releases_work crypt_unreadable /\ mounts crypt_unreadable (ex_bundle FCrypt 4096) true = Failed true /\
  In (KDmRemove Crypt false, Good 0%N) (w_tr (after_mount crypt_unreadable (ex_bundle FCrypt 4096) true)) /\
  In (KDmRemove Verity false, Good 0%N) (w_tr (after_mount crypt_unreadable (ex_bundle FCrypt 4096) true)).
Proof.
  split. { intros h a. destruct a as [| | | | | | | | | | | [|] | | | | | | | | | | | | |]; cbn; intros H; try discriminate; reflexivity. }
  vm_compute. split; [reflexivity|]. split; repeat first [left; reflexivity|right].
Qed.
(** Unmounting is refused (the bundle is in use): the hypotheses of C61_failed_unmount_changes_nothing. *)
Definition busy_umount (h : hist) (a : kact) : ans := match a with KUmount => Bad | _ => all_good h a end.
Example C61_umount_refused : mounts busy_umount (ex_bundle FVerity 4096) false = Mounted /\
  fst (umount_bundle busy_umount (after_mount busy_umount (ex_bundle FVerity 4096) false)) = false.
Proof. vm_compute. auto. Qed.
(** All loop devices are taken: ten tries. *)
Definition taken (h : hist) (a : kact) : ans := match a with KLoopSetFd _ => Busy | _ => all_good h a end.
Example C61_ten_tries_case : mounts taken (ex_bundle Plain 0) false = Failed true /\
  count is_free (w_tr (after_mount taken (ex_bundle Plain 0) false)) = 10.
Proof. vm_compute. auto. Qed.
