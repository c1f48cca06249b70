(** Where C19 and C20 fail without the extra hypotheses. *)
From Verif Require Import Base Disk DiskLemmas ExactIO ExactIOSpec ExactIOProofs BootRegion BootRegionSpec MbrRefuted Emmc HashIndex HashIndexSpec.

(** a toy digest: the first 32 bytes *)
Definition H32 (l : list byte) : digest := firstn 32 l.
Definition blk (b : byte) : list byte := repeat b 4096.

(** the hash is the smallest of the index and several chunks have it: the search for the first
    one gives up at position 0 and keeps the chunk found by bisection, which is beyond the upper
    limit; the valid one before it is not found *)
Lemma c19_smallest_refuted :
  exists H fuel o dsz idx h st st' p,
    built idx /\ hi_count idx = List.length (hi_hashes idx) /\ no_failures o /\ (N.of_nat (hi_count idx) * csz <= src_size (hi_src idx) dsz)%N /\
    in_range idx p /\ p < hi_count idx /\ nth p (hi_hashes idx) [] = h /\
    (forall q, q < hi_count idx -> H (chunk_of (src_disk (hi_src idx) (io_disk st)) q) = nth q (hi_hashes idx) []) /\
    get_chunk H fuel o dsz idx h st = (Failed, st').
Proof.
  exists H32, 100, good, (3 * 4096)%N, (set_from (prepare_index STarget 3 [repeat 7%N 32; repeat 7%N 32; repeat 7%N 32]) 1), (repeat 7%N 32), (mkIo 0 (fun _ => 7%N) []).
  eexists. exists 0. sp.
  - split; [reflexivity|cbn; lia].
  - reflexivity.
  - intros k. reflexivity.
  - vm_compute. discriminate.
  - split; cbn; lia.
  - cbn. lia.
  - reflexivity.
  - intros q Hq. cbn [hi_src set_from prepare_index src_disk io_disk hi_count] in *. destruct q as [|[|[|q]]]; [| | |lia]; vm_compute; reflexivity.
  - vm_compute. reflexivity.
Qed.

(** an index file with more hashes than the device has chunks: the table is sorted over all of
    them, but only its first part is searched *)
Lemma c19_long_index_refuted :
  exists H fuel o dsz s file st idx st1 h st' p,
    no_failures o /\ index_open false H fuel o s dsz (Some file) st = (Done (Ok idx), st1) /\
    in_range idx p /\ p < hi_count idx /\ nth p (hi_hashes idx) [] = h /\ H (chunk_of (src_disk s (io_disk st)) p) = h /\
    get_chunk H fuel o dsz idx h st = (Failed, st').
Proof.
  exists H32, 100, good, 4096%N, STarget, (repeat 7%N 32 ++ repeat 5%N 32), (mkIo 0 (fun _ => 7%N) []).
  do 2 eexists. exists (repeat 7%N 32). eexists. exists 0. sp.
  - intros k. reflexivity.
  - vm_compute. reflexivity.
  - split; cbn; [lia|exact Logic.I].
  - cbn. lia.
  - reflexivity.
  - vm_compute. reflexivity.
  - vm_compute. reflexivity.
Qed.

(** an index in the bundle that is shorter than the image: the installation of the image succeeds,
    but the end of the image is not written *)
Lemma c20_short_index_refuted :
  exists H fuel o dsz ss limit size methods tfile sd img f d0 st' p,
    no_failures o /\ describes H f img /\ size = lenN img /\
    write_image_to_dev false H (H (repeat 0%N (N.to_nat csz))) fuel o dsz ss limit size methods true tfile sd img (Some f) (mkIo 0 d0 []) = (Done (Ok tt), st') /\
    (p < lenN img)%N /\ io_disk st' p <> file_disk img p /\
    ~ collision H (chunk_of (io_disk st') (N.to_nat (p / csz))) (chunk_of (file_disk img) (N.to_nat (p / csz))).
Proof.
  exists H32, 100, good, 8192%N, 512%N, 0%N, 8192%N, ["block-hash-index"], None, None, (blk 7%N ++ blk 8%N), (repeat 7%N 32), (fun _ => 3%N).
  eexists (snd _). exists 4096%N. sp.
  - intros k. reflexivity.
  - intros p P _. change (List.length (file_hashes (repeat 7%N 32))) with 1 in P. destruct p; [|lia]. vm_compute. reflexivity.
  - vm_compute. reflexivity.
  - apply run_done. vm_compute. reflexivity.
  - vm_compute. reflexivity.
  - vm_compute. discriminate.
  - intros [_ C]. vm_compute in C. discriminate.
Qed.

(** a target of less than nine chunks without an index: with progress reporting the process dies *)
Lemma c20_small_target_refuted :
  exists H fuel o dsz ss limit size methods sd img ifile d0 st',
    no_failures o /\ (lenN img <= dsz)%N /\ size = lenN img /\
    write_image_to_dev true H (H (repeat 0%N (N.to_nat csz))) fuel o dsz ss limit size methods true None sd img ifile (mkIo 0 d0 []) = (Done Abort, st').
Proof.
  exists H32, 100, good, 8192%N, 512%N, 0%N, 4096%N, ["block-hash-index"], None, (blk 7%N), None, (fun _ => 3%N).
  eexists (snd _). sp.
  - intros k. reflexivity.
  - vm_compute. discriminate.
  - vm_compute. reflexivity.
  - apply run_done. vm_compute. reflexivity.
Qed.
