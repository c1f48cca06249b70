From Verif Require Import Base Disk DiskLemmas ExactIO ExactIOSpec ExactIOProofs BootRegion BootRegionSpec BootRegionProofs.

Lemma run_done {A B} (x : A * B) (a : A) : fst x = a -> x = (a, snd x).
Proof. destruct x. cbn. congruence. Qed.

Definition good : oracle := fun _ => SCount 4096.
(** a device whose first sector is an MBR with one partition *)
Definition mbr_disk (start size : N) : disk := fun p =>
  nth (N.to_nat (p - 454)) (if (454 <=? p)%N then put_le32 start ++ put_le32 size else []) (if (p =? 510)%N then 85%N else if (p =? 511)%N then 170%N else if (p <? 512)%N then 0%N else 7%N).

(** the size of the booted partition is not checked: if it covers both halves, the update
    overwrites a part of it *)
Lemma c22_mbr_size_refuted :
  exists fuel o dsz ss hd sc rs rz img size d0 st' x,
    whole_sectors o /\ (forall p, d0 p < 256)%N /\ (512 <= ss <= 65536)%N /\ (rs + rz <= 2 ^ 32 * ss)%N /\ (rz / 2 < 2 ^ 32)%N /\
    mbr_handler fuel o dsz ss hd sc rs rz img size (mkIo 0 d0 []) = (Done tt, st') /\
    (boot_start ss d0 <= x < boot_start ss d0 + boot_size ss d0)%N /\ io_disk st' x <> d0 x.
Proof.
  exists 20, good, 8192%N, 512%N, 0%N, 0%N, 1024%N, 2048%N, [1; 2; 3]%N, 3%N, (mbr_disk 2 4).
  eexists (snd _). exists 2048%N. sp.
  - intros k c H. injection H as <-. lia.
  - intros p. unfold mbr_disk.
    assert (X : forall l n x, (forall b, In b l -> b < 256)%N -> (x < 256)%N -> (nth n l x < 256)%N).
    { intros l n x B Hx. destruct (le_lt_dec (List.length l) n); [now rewrite nth_overflow|]. apply B, nth_In. lia. }
    apply X; [|repeat match goal with |- context [if ?b then _ else _] => destruct b end; lia].
    intros b. destruct (454 <=? p)%N; [|intros []]. cbn. intuition (subst; lia).
  - lia.
  - lia.
  - lia.
  - vm_compute. reflexivity.
  - apply run_done. vm_compute. reflexivity.
  - vm_compute. discriminate.
  - vm_compute. reflexivity.
  - vm_compute. discriminate.
Qed.

(** a half that starts at 2 TiB: the sector number does not fit into the entry and is truncated *)
Lemma c22_mbr_trunc_refuted :
  exists fuel o dsz ss hd sc rs rz img size d0 st',
    whole_sectors o /\ ss = 512%N /\ (rz / 2 < 2 ^ 32)%N /\
    mbr_handler fuel o dsz ss hd sc rs rz img size (mkIo 0 d0 []) = (Done tt, st') /\
    boot_start ss d0 = rs /\ boot_start ss (io_disk st') <> (rs + rz / 2)%N /\ boot_start ss (io_disk st') = 0%N.
Proof.
  exists 20, good, (2 ^ 41 + 8192)%N, 512%N, 0%N, 0%N, (2 ^ 41 - 1024)%N, 2048%N, [1; 2; 3]%N, 3%N, (mbr_disk (2 ^ 32 - 2) 2).
  eexists (snd _). sp.
  - intros k c H. injection H as <-. lia.
  - reflexivity.
  - vm_compute. reflexivity.
  - apply run_done. vm_compute. reflexivity.
  - vm_compute. reflexivity.
  - vm_compute. discriminate.
  - vm_compute. reflexivity.
Qed.

(** halves of 4 GiB or more: the 32-bit counter of the clear loop wraps around, the loop
    runs into the other, booted half *)
Lemma clear_wrap f : forall dsz fdpos size cc st, (2 ^ 32 <= size)%N -> (cc mod 512 = 0)%N -> (cc < 2 ^ 32)%N -> (fdpos + 512 * (N.of_nat f + 1) <= dsz)%N ->
  exists st', clear_loop (S f) good dsz fdpos size cc 512 st = (Running, st') /\ In (EW (fdpos + 512 * N.of_nat f) (repeat 0%N 512)) (io_trace st') /\
    exists tr, io_trace st' = io_trace st ++ tr.
Proof.
  induction f as [|f IH]; intros dsz fdpos size cc st S C L B.
  - assert (STEP : clear_loop 1 good dsz fdpos size cc 512 st = clear_loop 0 good dsz (fdpos + 512) size ((cc + 512) mod 2 ^ 32) 512 (mkIo (Datatypes.S (io_k st)) (dwrite (io_disk st) fdpos (repeat 0%N 512)) (io_trace st ++ [EW fdpos (repeat 0%N 512)]))).
    { cbn [clear_loop]. destruct (N.ltb_spec cc size); [|lia].
      destruct (N.ltb_spec (size - cc) 512) as [X|_].
      { exfalso. pose proof (N.div_mod cc 512 ltac:(lia)). change (2 ^ 32)%N with (512 * 8388608)%N in *. lia. }
      unfold sys_pwrite, good. destruct (N.leb_spec dsz fdpos); [lia|]. rewrite lenN_repeat.
      change (N.of_nat (N.to_nat 512)) with 512%N. replace (N.min 4096 (N.min 512 (dsz - fdpos))) with 512%N by lia.
      change (N.to_nat 512) with 512. rewrite firstn_repeat. change (Nat.min 512 512) with 512. reflexivity. }
    rewrite STEP. unfold clear_loop.
    pose proof (N.mod_lt (cc + 512) (2 ^ 32) ltac:(lia)). destruct (N.ltb_spec ((cc + 512) mod 2 ^ 32) size); [|lia].
    eexists. split; [reflexivity|]. cbn [io_trace]. split; [apply in_or_app; right; left; f_equal; cbn; lia|]. eexists. reflexivity.
  - assert (STEP : clear_loop (Datatypes.S (Datatypes.S f)) good dsz fdpos size cc 512 st = clear_loop (Datatypes.S f) good dsz (fdpos + 512) size ((cc + 512) mod 2 ^ 32) 512 (mkIo (Datatypes.S (io_k st)) (dwrite (io_disk st) fdpos (repeat 0%N 512)) (io_trace st ++ [EW fdpos (repeat 0%N 512)]))).
    { unfold clear_loop at 1. fold clear_loop. destruct (N.ltb_spec cc size); [|lia].
      destruct (N.ltb_spec (size - cc) 512) as [X|_].
      { exfalso. pose proof (N.div_mod cc 512 ltac:(lia)). change (2 ^ 32)%N with (512 * 8388608)%N in *. lia. }
      unfold sys_pwrite, good. destruct (N.leb_spec dsz fdpos); [lia|]. rewrite lenN_repeat.
      change (N.of_nat (N.to_nat 512)) with 512%N. replace (N.min 4096 (N.min 512 (dsz - fdpos))) with 512%N by lia.
      change (N.to_nat 512) with 512. rewrite firstn_repeat. change (Nat.min 512 512) with 512. reflexivity. }
    rewrite STEP. destruct (IH dsz (fdpos + 512)%N size ((cc + 512) mod 2 ^ 32)%N
      (mkIo (Datatypes.S (io_k st)) (dwrite (io_disk st) fdpos (repeat 0%N 512)) (io_trace st ++ [EW fdpos (repeat 0%N 512)]))) as (st' & R & I & tr & T).
    + exact S.
    + change (2 ^ 32)%N with (512 * 8388608)%N.
      pose proof (N.div_mod cc 512 ltac:(lia)) as DM. rewrite C, N.add_0_r in DM.
      replace (cc + 512)%N with (512 * (cc / 512 + 1))%N by lia. rewrite N.mul_mod_distr_l by lia. rewrite N.mul_comm. apply N.mod_mul. lia.
    + apply N.mod_lt. lia.
    + lia.
    + exists st'. split; [exact R|]. split.
      * replace (fdpos + 512 * N.of_nat (Datatypes.S f))%N with (fdpos + 512 + 512 * N.of_nat f)%N by lia. exact I.
      * exists ([EW fdpos (repeat 0%N 512)] ++ tr). rewrite T. cbn [io_trace]. now rewrite <- app_assoc.
Qed.

Lemma c22_mbr_clear_refuted :
  exists fuel o dsz ss hd sc rs rz img size d0 r st' off l,
    whole_sectors o /\ ss = 512%N /\ (rs + rz <= 2 ^ 32 * ss)%N /\
    mbr_handler fuel o dsz ss hd sc rs rz img size (mkIo 0 d0 []) = (r, st') /\
    boot_start ss d0 = (rs + rz / 2)%N /\ boot_size ss d0 = (rz / 2)%N /\
    (* a write into the booted half *)
    In (EW off l) (io_trace st') /\ l <> [] /\ (boot_start ss d0 <= off < boot_start ss d0 + boot_size ss d0)%N.
Proof.
  set (d0 := mbr_disk (2048 + 8388608) 8388608).
  set (f := N.to_nat 8388608).
  assert (FN : N.of_nat f = 8388608%N) by apply N2Nat.id. clearbody f.
  destruct (clear_wrap f (2 ^ 40) 1048576 (2 ^ 32) 0 (mkIo 3 d0 [])) as (st' & R & I & _); try lia.
  exists (S f), good, (2 ^ 40)%N, 512%N, 0%N, 0%N, 1048576%N, (2 ^ 33)%N, [1; 2; 3]%N, 3%N, d0.
  exists Running, st', (1048576 + 512 * N.of_nat f)%N, (repeat 0%N 512). sp.
  - intros k c H. injection H as <-. lia.
  - reflexivity.
  - vm_compute. discriminate.
  - unfold mbr_handler.
    assert (G : mbr_get_inactive good (2 ^ 40) 512 1048576 (2 ^ 33) (mkIo 0 d0 []) = (Done (mkBpart 1048576 (2 ^ 32)), mkIo 1 d0 [])) by (vm_compute; reflexivity).
    rewrite G. cbn [bp_size bp_start].
    change (2 ^ 32 <? 3)%N with false. cbv iota. unfold sys_ok. cbn [good io_k io_disk io_trace negb].
    unfold clear_part, sys_ok. cbn [good io_k io_disk io_trace negb bp_start bp_size].
    change (lseek_ok (2 ^ 40) 1048576) with true. cbn [negb]. rewrite R. reflexivity.
  - vm_compute. reflexivity.
  - vm_compute. reflexivity.
  - exact I.
  - discriminate.
  - rewrite FN. vm_compute. discriminate.
  - rewrite FN. vm_compute. reflexivity.
Qed.
