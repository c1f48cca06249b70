From Verif Require Import Base Disk DiskLemmas ExactIO ExactIOSpec ExactIOProofs BootRegion BootRegionSpec BootRegionProofs MbrProofs MbrRefuted RawFallbackSpec RawFallbackProofs RawFallbackRom.

Definition fill (c : N) (n : nat) : list byte := repeat c n.
(** a device with [l] at [pos] and zeros elsewhere *)
Definition disk_with (pos : N) (l : list byte) : disk := dwrite (fun _ => 0%N) pos l.

Lemma real_fill c n : (c <> 0)%N -> (c <> 255)%N -> 0 < n -> real_header (fill c n).
Proof. intros A B C. destruct n; [lia|]. exists 0. cbn. split; [lia|auto]. Qed.

(** clearing is not followed by a flush: on a device that reorders writes, the primary half
    may be left with its old header and a destroyed body *)
Lemma c24_reorder_refuted :
  exists fuel o dsz rs rz img size old d0 r st' d',
    whole_sectors o /\ (rs + rz <= dsz)%N /\ lenN img = size /\ (512 <= size)%N /\ (512 <= lenN old <= rz / 2)%N /\ real_header old /\ real_header img /\
    holds d0 rs old /\
    raw_fallback_handler fuel o dsz 512 rs rz img size (mkIo 0 d0 []) = (r, st') /\
    crash 512 d0 (io_trace st') d' /\ rom_primary d' rs old img /\ ~ holds d' rs old /\ ~ holds d' rs img.
Proof.
  set (d0 := disk_with 1024 (fill 7 1024)).
  set (P := raw_fallback_handler 40 good 8192 512 1024 2048 (fill 9 1024) 1024 (mkIo 0 d0 [])).
  set (tr := io_trace (snd P)). set (b := firstn 6 tr). set (p := firstn 2 (skipn 6 tr)).
  set (d' := fun x => if (x / 512 =? 3)%N then play d0 (b ++ p) x else play d0 b x).
  exists 40, good, 8192%N, 1024%N, 2048%N, (fill 9 1024), 1024%N, (fill 7 1024), d0, (fst P), (snd P), d'. sp.
  - intros k c H. injection H as <-. lia.
  - lia.
  - reflexivity.
  - lia.
  - vm_compute. discriminate.
  - vm_compute. discriminate.
  - apply real_fill; lia.
  - apply real_fill; lia.
  - vm_compute. reflexivity.
  - fold P. apply surjective_pairing.
  - exists b, p, (skipn 2 (skipn 6 tr)). split; [unfold b, p; now rewrite !firstn_skipn|]. split.
    + assert (E : p = [EW 1024 z512; EW 1536 z512]) by (vm_compute; reflexivity). rewrite E. intros [X|[X|[]]]; discriminate.
    + intros s. destruct (N.eqb_spec s 3) as [->|N].
      * exists 2. intros x Hx. unfold d'. rewrite Hx. cbn [N.eqb Pos.eqb]. assert (E : firstn 2 p = p) by (vm_compute; reflexivity). rewrite E. reflexivity.
      * exists 0. intros x Hx. unfold d'. rewrite Hx. destruct (N.eqb_spec s 3); [contradiction|]. rewrite firstn_O, app_nil_r. reflexivity.
  - left. vm_compute. reflexivity.
  - intros H. vm_compute in H. discriminate.
  - intros H. vm_compute in H. discriminate.
Qed.

(** the erased-header test never ends if the region starts exactly at the end of the device *)
Lemma area_clear_hangs fuel : forall dsz st, exists st', area_clear_loop fuel good dsz dsz 512 true st = (Running, st').
Proof.
  induction fuel as [|f IH]; intros dsz st; cbn [area_clear_loop N.eqb negb andb]; [eexists; reflexivity|].
  unfold sys_pread, good. rewrite N.leb_refl. cbn [forallb]. rewrite lenN_nil, N.add_0_r, N.sub_0_r. apply IH.
Qed.
Lemma c24_hang_refuted :
  exists o dsz rs rz img size d0, no_failures o /\ lenN img = size /\ (rs + rz < 2 ^ 64)%N /\
    forall fuel, fst (raw_fallback_handler fuel o dsz 512 rs rz img size (mkIo 0 d0 [])) = Running.
Proof.
  exists good, 8192%N, 8192%N, 2048%N, (fill 9 1024), 1024%N, (fun _ => 0%N). sp.
  - intros k. cbn. lia.
  - reflexivity.
  - lia.
  - intros fuel. unfold raw_fallback_handler. change (8192 mod 512 =? 0)%N with true. change (2048 / 2)%N with 1024%N.
    change (1024 mod 512 =? 0)%N with true. change (1024 <? 1024)%N with false. cbn [negb].
    unfold sys_ok. cbn [good io_k io_disk io_trace negb]. unfold area_is_clear, sys_ok. cbn [good io_k io_disk io_trace negb].
    change (lseek_ok 8192 8192) with true. cbn [negb].
    destruct (area_clear_hangs fuel 8192%N (mkIo 2 (fun _ : N => 0%N) [])) as [st' E]. rewrite E. reflexivity.
Qed.

(** an image file that is longer than announced: the announced number of bytes is written
    behind the header, that is up to 512 bytes too far; the error comes too late *)
Lemma c24_oversize_refuted :
  exists fuel o dsz rs rz img size old d0 st',
    whole_sectors o /\ (rs + rz <= dsz)%N /\ (size < lenN img)%N /\ (size <= rz / 2)%N /\ (512 <= lenN old <= rz / 2)%N /\
    header_clear d0 rs /\ holds d0 (rs + rz / 2) old /\
    raw_fallback_handler fuel o dsz 512 rs rz img size (mkIo 0 d0 []) = (Failed, st') /\
    ~ holds (io_disk st') (rs + rz / 2) old /\ ~ holds (io_disk st') rs old /\
    ~ holds (io_disk st') rs (firstn (N.to_nat size) img) /\ ~ holds (io_disk st') (rs + rz / 2) (firstn (N.to_nat size) img).
Proof.
  set (d0 := disk_with 2048 (fill 7 1024)).
  exists 40, good, 8192%N, 1024%N, 2048%N, (fill 9 1536), 1024%N, (fill 7 1024), d0. eexists (snd _). sp.
  - intros k c H. injection H as <-. lia.
  - lia.
  - vm_compute. reflexivity.
  - vm_compute. discriminate.
  - vm_compute. discriminate.
  - vm_compute. discriminate.
  - intros i Hi. left. unfold d0, disk_with. apply dwrite_out. lia.
  - vm_compute. reflexivity.
  - apply run_done. vm_compute. reflexivity.
  - intros H. vm_compute in H. discriminate.
  - intros H. vm_compute in H. discriminate.
  - intros H. vm_compute in H. discriminate.
  - intros H. vm_compute in H. discriminate.
Qed.
