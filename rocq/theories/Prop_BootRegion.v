(** C18 (raw images), C22, C23, C24: boot regions. *)
From Verif Require Import Base Disk DiskLemmas ExactIO ExactIOSpec ExactIOProofs BootRegion BootRegionSpec BootRegionProofs MbrProofs MbrRefuted Gpt GptSpec GptProofs
  RawFallbackSpec RawFallbackProofs RawFallbackRom RawFallbackRefuted Emmc EmmcSpec EmmcProofs RawImageProofs.

Theorem C18_raw_image : forall fuel o dsz ss limit img size d0 r st',
  copy_to_dev fuel o dsz ss limit img size (mkIo 0 d0 []) = (r, st') ->
  (* whatever happens, only the first [size] bytes of the device are touched *)
  same_outside 0 size d0 (io_disk st') /\
  (r = Done tt ->
     (size <= dsz)%N /\ (0 < limit -> size <= limit)%N /\
     (* exactly the announced number of bytes came from the image *)
     (size = 0 \/ lenN img = size)%N /\
     dread (io_disk st') 0 (N.to_nat size) = firstn (N.to_nat size) img /\
     (* and all of it was flushed: it survives any later power loss *)
     forall d', crash_at (List.length (io_trace st')) ss d0 (io_trace st') d' -> forall p, d' p = io_disk st' p).
Proof. exact c18_raw_image_ok. Qed.
Print Assumptions C18_raw_image.
Theorem C22_mbr : forall fuel o dsz ss hd sc rs rz img size d0 r st',
  (forall p, d0 p < 256)%N -> (512 <= ss <= 65536)%N -> (rs + rz <= 2 ^ 32 * ss)%N -> (rz / 2 < 2 ^ 32)%N ->
  mbr_handler fuel o dsz ss hd sc rs rz img size (mkIo 0 d0 []) = (r, st') ->
  (io_trace st' = [] /\ r <> Done tt) \/
  exists h, let half := (rz / 2)%N in
    (* h is the half that is not booted *)
    (boot_start ss d0 = rs /\ h = rs + half \/ boot_start ss d0 = rs + half /\ h = rs)%N /\
    (* the region is not used by another partition *)
    (forall i x, In i [1; 2; 3] -> (entry_start (mbr_of d0) i * ss <= x < (entry_start (mbr_of d0) i + entry_size (mbr_of d0) i) * ss)%N ->
       ~ (rs <= x < rs + rz)%N) /\
    (* at every crash point, if the disk writes at least whole blocks of 512 bytes *)
    (whole_sectors o -> forall d', crash ss d0 (io_trace st') d' ->
       (forall p, (512 <= p)%N -> ~ (h <= p < h + half)%N -> d' p = d0 p) /\
       (mbr_of d' = mbr_of d0 \/
        boot_start ss d' = h /\ boot_size ss d' = half /\
        (forall j, ~ (447 <= j < 450 \/ 451 <= j < 462) -> nth j (mbr_of d') 0%N = nth j (mbr_of d0) 0%N) /\
        dread d' h (List.length (firstn (N.to_nat size) img)) = firstn (N.to_nat size) img /\ (size = 0 \/ lenN img = size)%N)) /\
    (* after success *)
    (r = Done tt ->
       boot_start ss (io_disk st') = h /\ boot_size ss (io_disk st') = half /\
       dread (io_disk st') h (List.length (firstn (N.to_nat size) img)) = firstn (N.to_nat size) img /\ (size = 0 \/ lenN img = size)%N /\
       (forall p, (h + size <= p < h + half)%N -> io_disk st' p = 0%N)).
Proof. exact c22_mbr_ok. Qed.
Print Assumptions C22_mbr.
Theorem C22_gpt : forall fuel o dsz ss gr ns rs rz chg img size d0 t0 r g',
  (0 < ss)%N -> (gr mod ss = 0)%N -> (0 < gr)%N -> (rs + rz < 2 ^ 64)%N -> (rz / 2 < 2 ^ 32)%N ->
  gpt_handler fuel o dsz ss gr ns rs rz chg img size (mkGst (mkIo 0 d0 []) t0 []) = (r, g') ->
  (io_trace (g_io g') = [] /\ g_writes g' = [] /\ g_tab g' = t0 /\ r <> Done tt) \/
  exists h pa, let half := (rz / 2)%N in
    (* h is the half that is not booted *)
    gpt_boot t0 = Some pa /\
    (gp_start pa * ss = rs /\ h = rs + half \/ gp_start pa * ss = rs + half /\ h = rs)%N /\
    (* the region is not used by another partition *)
    (forall p x, In p t0 -> gp_no p <> 0 -> (gp_start p * ss <= x < (gp_end p + 1) * ss)%N -> ~ (rs <= x < rs + rz)%N) /\
    (* at every crash point *)
    (forall d' t', gpt_crash ss d0 t0 (io_trace (g_io g')) (g_writes g') d' t' ->
       same_outside h (h + half) d0 d' /\
       (forall n, n <> 0 -> find (fun p => Nat.eqb (gp_no p) n) t' = find (fun p => Nat.eqb (gp_no p) n) t0) /\
       (t' = t0 \/
        gpt_boot_is ss t' h half /\
        dread d' h (List.length (firstn (N.to_nat size) img)) = firstn (N.to_nat size) img /\ (size = 0 \/ lenN img = size)%N)) /\
    (* after success *)
    (r = Done tt ->
       gpt_boot_is ss (g_tab g') h half /\
       dread (io_disk (g_io g')) h (List.length (firstn (N.to_nat size) img)) = firstn (N.to_nat size) img /\ (size = 0 \/ lenN img = size)%N /\
       (forall p, (h + size <= p < h + half)%N -> io_disk (g_io g') p = 0%N)).
Proof. exact c22_gpt_ok. Qed.
Print Assumptions C22_gpt.
Theorem C22_mbr_size_refuted :
  exists fuel o dsz ss hd sc rs rz img size d0 st' x,
    whole_sectors o /\ (forall p, d0 p < 256)%N /\ (512 <= ss <= 65536)%N /\ (rs + rz <= 2 ^ 32 * ss)%N /\ (rz / 2 < 2 ^ 32)%N /\
    mbr_handler fuel o dsz ss hd sc rs rz img size (mkIo 0 d0 []) = (Done tt, st') /\
    (boot_start ss d0 <= x < boot_start ss d0 + boot_size ss d0)%N /\ io_disk st' x <> d0 x.
Proof. exact c22_mbr_size_refuted. Qed.
Print Assumptions C22_mbr_size_refuted.
Theorem C22_mbr_trunc_refuted :
  exists fuel o dsz ss hd sc rs rz img size d0 st',
    whole_sectors o /\ ss = 512%N /\ (rz / 2 < 2 ^ 32)%N /\
    mbr_handler fuel o dsz ss hd sc rs rz img size (mkIo 0 d0 []) = (Done tt, st') /\
    boot_start ss d0 = rs /\ boot_start ss (io_disk st') <> (rs + rz / 2)%N /\ boot_start ss (io_disk st') = 0%N.
Proof. exact c22_mbr_trunc_refuted. Qed.
Print Assumptions C22_mbr_trunc_refuted.
Theorem C22_mbr_clear_refuted :
  exists fuel o dsz ss hd sc rs rz img size d0 r st' off l,
    whole_sectors o /\ ss = 512%N /\ (rs + rz <= 2 ^ 32 * ss)%N /\
    mbr_handler fuel o dsz ss hd sc rs rz img size (mkIo 0 d0 []) = (r, st') /\
    boot_start ss d0 = (rs + rz / 2)%N /\ boot_size ss d0 = (rz / 2)%N /\
    (* a write into the booted half *)
    In (EW off l) (io_trace st') /\ l <> [] /\ (boot_start ss d0 <= off < boot_start ss d0 + boot_size ss d0)%N.
Proof. exact c22_mbr_clear_refuted. Qed.
Print Assumptions C22_mbr_clear_refuted.
Theorem C23_emmc : forall fuel o dsz ss limit img size cfg0 d0 r e',
  (cfg0 < 256)%N ->
  emmc_handler fuel o dsz ss limit img size (mkEmmc 0 cfg0 d0 (fun _ => []) []) = (r, e') ->
  (e_part e' = d0 /\ (forall i, e_trace e' i = []) /\ e_writes e' = [] /\ e_cfg e' = cfg0 /\ r <> Done tt) \/
  exists q, (* the partition that is not booted; partition 0 if none is enabled *)
    (boot_field cfg0 = 0 /\ q = 0%nat \/ boot_field cfg0 = 1 /\ q = 1%nat \/ boot_field cfg0 = 2 /\ q = 0%nat)%N /\
    (* only this partition is written *)
    (forall i, i <> q -> e_trace e' i = [] /\ e_part e' i = d0 i) /\
    (* at every crash point *)
    (forall d' cfg', emmc_crash ss d0 cfg0 e' d' cfg' ->
       (forall i p, i <> q -> d' i p = d0 i p) /\
       (cfg' = cfg0 \/
        boot_field cfg' = (N.of_nat q + 1)%N /\ boot_ack cfg' = boot_ack cfg0 /\
        dread (d' q) 0 (List.length (firstn (N.to_nat size) img)) = firstn (N.to_nat size) img /\ (size = 0 \/ lenN img = size)%N)) /\
    (* after success *)
    (r = Done tt ->
       dread (e_part e' q) 0 (List.length (firstn (N.to_nat size) img)) = firstn (N.to_nat size) img /\ (size = 0 \/ lenN img = size)%N /\
       (boot_field cfg0 <> 0%N -> boot_field (e_cfg e') = (N.of_nat q + 1)%N /\ boot_ack (e_cfg e') = boot_ack cfg0)).
Proof. exact c23_emmc_ok. Qed.
Print Assumptions C23_emmc.
Theorem C23_reject : forall fuel o dsz ss limit img size cfg0 d0 r e',
  (cfg0 < 256)%N -> (2 < boot_field cfg0)%N ->
  emmc_handler fuel o dsz ss limit img size (mkEmmc 0 cfg0 d0 (fun _ => []) []) = (r, e') ->
  r = Failed /\ e_part e' = d0 /\ (forall i, e_trace e' i = []) /\ e_writes e' = [] /\ e_cfg e' = cfg0.
Proof. exact c23_reject_ok. Qed.
Print Assumptions C23_reject.
Theorem C23_readback : forall cfg i, (cfg < 256)%N -> i = 0 \/ i = 1 -> read_bootpart (bootpart_value cfg i) = BpPart i.
Proof. exact c23_readback_ok. Qed.
Print Assumptions C23_readback.
Theorem C23_unset_refuted : exists fuel o dsz ss limit img size cfg0 d0 e',
  (cfg0 < 256)%N /\ emmc_handler fuel o dsz ss limit img size (mkEmmc 0 cfg0 d0 (fun _ => []) []) = (Done tt, e') /\
  boot_field (e_cfg e') = 0%N.
Proof. exact c23_unset_refuted. Qed.
Print Assumptions C23_unset_refuted.
Theorem C24_one_complete : forall fuel o dsz ss rs rz img size old d0 r st',
  (rs + rz < 2 ^ 64)%N -> (rz / 2 < 2 ^ 32)%N -> lenN img = size -> (lenN old <= rz / 2)%N ->
  (holds d0 rs old /\ ~ header_clear d0 rs) \/ (header_clear d0 rs /\ holds d0 (rs + rz / 2) old) ->
  raw_fallback_handler fuel o dsz ss rs rz img size (mkIo 0 d0 []) = (r, st') ->
  (forall d', crash ss d0 (io_trace st') d' ->
     same_outside rs (rs + rz / 2 * 2) d0 d' /\
     exists h, (h = rs \/ h = rs + rz / 2)%N /\ (holds d' h old \/ holds d' h img)) /\
  (r = Done tt -> holds (io_disk st') rs img /\ holds (io_disk st') (rs + rz / 2) img).
Proof. exact c24_one_complete_ok. Qed.
Print Assumptions C24_one_complete.
Theorem C24_rom : forall fuel o dsz rs rz img size old d0 r st',
  whole_sectors o -> (rs + rz < 2 ^ 64)%N -> (rs + rz <= dsz)%N -> (rz / 2 < 2 ^ 32)%N -> lenN img = size ->
  (512 <= size)%N -> (512 <= lenN old <= rz / 2)%N -> real_header old -> real_header img ->
  holds d0 rs old \/ (header_clear d0 rs /\ holds d0 (rs + rz / 2) old) ->
  raw_fallback_handler fuel o dsz 512 rs rz img size (mkIo 0 d0 []) = (r, st') ->
  forall d', crash_in_order 512 d0 (io_trace st') d' ->
    (rom_primary d' rs old img -> holds d' rs old \/ holds d' rs img) /\
    (~ rom_primary d' rs old img -> holds d' (rs + rz / 2) old \/ holds d' (rs + rz / 2) img).
Proof. exact c24_rom_ok. Qed.
Print Assumptions C24_rom.
Theorem C24_reorder_refuted :
  exists fuel o dsz rs rz img size old d0 r st' d',
    whole_sectors o /\ (rs + rz <= dsz)%N /\ lenN img = size /\ (512 <= size)%N /\ (512 <= lenN old <= rz / 2)%N /\ real_header old /\ real_header img /\
    holds d0 rs old /\
    raw_fallback_handler fuel o dsz 512 rs rz img size (mkIo 0 d0 []) = (r, st') /\
    crash 512 d0 (io_trace st') d' /\ rom_primary d' rs old img /\ ~ holds d' rs old /\ ~ holds d' rs img.
Proof. exact c24_reorder_refuted. Qed.
Print Assumptions C24_reorder_refuted.
Theorem C24_hang_refuted :
  exists o dsz rs rz img size d0, no_failures o /\ lenN img = size /\ (rs + rz < 2 ^ 64)%N /\
    forall fuel, fst (raw_fallback_handler fuel o dsz 512 rs rz img size (mkIo 0 d0 [])) = Running.
Proof. exact c24_hang_refuted. Qed.
Print Assumptions C24_hang_refuted.
Theorem C24_oversize_refuted :
  exists fuel o dsz rs rz img size old d0 st',
    whole_sectors o /\ (rs + rz <= dsz)%N /\ (size < lenN img)%N /\ (size <= rz / 2)%N /\ (512 <= lenN old <= rz / 2)%N /\
    header_clear d0 rs /\ holds d0 (rs + rz / 2) old /\
    raw_fallback_handler fuel o dsz 512 rs rz img size (mkIo 0 d0 []) = (Failed, st') /\
    ~ holds (io_disk st') (rs + rz / 2) old /\ ~ holds (io_disk st') rs old /\
    ~ holds (io_disk st') rs (firstn (N.to_nat size) img) /\ ~ holds (io_disk st') (rs + rz / 2) (firstn (N.to_nat size) img).
Proof. exact c24_oversize_refuted. Qed.
Print Assumptions C24_oversize_refuted.

(** ** runs that succeed *)
Example C18_raw_example :
  let '(r, st) := copy_to_dev 20 good 8192 512 0 [1; 2; 3]%N 3 (mkIo 0 (fun _ => 9%N) []) in
  r = Done tt /\ dread (io_disk st) 0 4 = [1; 2; 3; 9]%N.
Proof. vm_compute. auto. Qed.
(** an image that is shorter or longer than announced, or than the device, is refused *)
Example C18_raw_short :
  fst (copy_to_dev 20 good 8192 512 0 [1; 2; 3]%N 4 (mkIo 0 (fun _ => 9%N) [])) = Failed /\
  fst (copy_to_dev 20 good 8192 512 0 [1; 2; 3]%N 2 (mkIo 0 (fun _ => 9%N) [])) = Failed /\
  fst (copy_to_dev 20 good 2 512 0 [1; 2; 3]%N 3 (mkIo 0 (fun _ => 9%N) [])) = Failed.
Proof. vm_compute. auto. Qed.

(** MBR: region of two halves of two sectors each at sector 2; booted is the first half *)
Definition ex_mbr := mbr_handler 20 good 8192 512 0 0 1024 2048 [1; 2; 3]%N 3 (mkIo 0 (mbr_disk 2 2) []).
Example C22_mbr_example :
  fst ex_mbr = Done tt /\ boot_start 512 (mbr_disk 2 2) = 1024%N /\
  boot_start 512 (io_disk (snd ex_mbr)) = 2048%N /\ dread (io_disk (snd ex_mbr)) 2048 4 = [1; 2; 3; 0]%N.
Proof. split; [vm_compute; reflexivity|]. split; [vm_compute; reflexivity|]. split; vm_compute; reflexivity. Qed.

Definition ex_gpt := gpt_handler 20 good 65536 512 512 128 20480 2048 false [1; 2; 3]%N 3
  (mkGst (mkIo 0 (fun _ => 9%N) []) [mkGpart 0 42 43; mkGpart 1 60 70] []).
Example C22_gpt_example :
  fst ex_gpt = Done tt /\ g_tab (snd ex_gpt) = [mkGpart 0 40 41; mkGpart 1 60 70] /\
  dread (io_disk (g_io (snd ex_gpt))) 20480 4 = [1; 2; 3; 0]%N.
Proof. split; [vm_compute; reflexivity|]. split; vm_compute; reflexivity. Qed.

(** eMMC: booted is partition 1 (field 2), with BOOT_ACK set *)
Definition ex_emmc := emmc_handler 20 good 2048 512 0 [1; 2; 3]%N 3 (mkEmmc 0 80 (fun _ _ => 9%N) (fun _ => []) []).
Example C23_example :
  fst ex_emmc = Done tt /\ e_cfg (snd ex_emmc) = 72%N /\ dread (e_part (snd ex_emmc) 0) 0 4 = [1; 2; 3; 0]%N /\
  dread (e_part (snd ex_emmc) 1) 0 4 = [9; 9; 9; 9]%N.
Proof. split; [vm_compute; reflexivity|]. split; [vm_compute; reflexivity|]. split; vm_compute; reflexivity. Qed.
(** PARTITION_CONFIG with boot from the user area *)
Example C23_reject_example : boot_field 56 = 7%N. Proof. reflexivity. Qed.

(** raw fallback: old image in the primary half *)
Definition ex_raw := raw_fallback_handler 40 good 8192 512 1024 2048 (fill 9 1024) 1024 (mkIo 0 (disk_with 1024 (fill 7 1024)) []).
Example C24_example :
  fst ex_raw = Done tt /\ real_header (fill 7 1024) /\ real_header (fill 9 1024) /\ holds (disk_with 1024 (fill 7 1024)) 1024 (fill 7 1024).
Proof.
  split; [vm_compute; reflexivity|]. split; [apply real_fill; lia|]. split; [apply real_fill; lia|]. vm_compute. reflexivity.
Qed.
Example C24_oracle_example : whole_sectors good. Proof. intros k c H. injection H as <-. lia. Qed.
