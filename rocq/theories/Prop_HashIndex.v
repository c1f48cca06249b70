(** C19, C20: hash index and adaptive update. *)
From Verif Require Import Base Disk DiskLemmas ExactIO ExactIOSpec ExactIOProofs BootRegion BootRegionSpec BootRegionProofs MbrProofs MbrRefuted GptSpec Emmc
  HashIndex HashIndexSpec HashIndexProofs AdaptiveProofs HashIndexRefuted.

Theorem C19_open : forall pg H fuel o s dsz file st r st',
  index_open pg H fuel o s dsz file st = (r, st') ->
  io_disk st' = io_disk st /\ io_trace st' = io_trace st /\
  forall idx, r = Done (Ok idx) ->
    built idx /\ hi_src idx = s /\ hi_below idx = 0 /\ hi_from idx = None /\ hi_skip idx = false /\
    exists n, (N.of_nat n * csz = src_size s dsz)%N /\
      match file with
      | Some f => hi_hashes idx = file_hashes f /\ hi_count idx = Nat.min n (List.length (file_hashes f))
      | None => hi_count idx = n /\ hi_hashes idx = map (fun i => H (chunk_of (src_disk s (io_disk st)) i)) (seq 0 n)
      end.
Proof. exact c19_open_ok. Qed.
Print Assumptions C19_open.
Theorem C19_sound : forall H fuel o dsz idx h st l st',
  built idx -> get_chunk H fuel o dsz idx h st = (Done l, st') ->
  (* nothing is written *)
  io_disk st' = io_disk st /\ io_trace st' = io_trace st /\
  (* a chunk in the valid range whose entry in the index is the hash *)
  (exists p, in_range idx p /\ p < List.length (hi_hashes idx) /\ nth p (hi_hashes idx) [] = h /\
     (N.of_nat p * csz + csz <= src_size (hi_src idx) dsz)%N /\ l = chunk_of (src_disk (hi_src idx) (io_disk st)) p) /\
  (* and whose content has been verified *)
  (hi_skip idx = false -> H l = h).
Proof. exact c19_sound_ok. Qed.
Print Assumptions C19_sound.
Theorem C19_complete : forall H fuel o dsz idx h st p,
  built idx -> hi_count idx = List.length (hi_hashes idx) -> no_failures o -> N.to_nat csz < fuel ->
  (* the index covers existing data *)
  (N.of_nat (hi_count idx) * csz <= src_size (hi_src idx) dsz)%N ->
  (* chunk [p] is in the valid range, and chunks with this entry are intact *)
  in_range idx p -> p < hi_count idx -> nth p (hi_hashes idx) [] = h ->
  (forall q, in_range idx q -> q < hi_count idx -> nth q (hi_hashes idx) [] = h -> H (chunk_of (src_disk (hi_src idx) (io_disk st)) q) = h) ->
  (* there is no upper limit, or the hash is not the smallest one *)
  hi_from idx = None \/ (exists q, q < hi_count idx /\ memcmp (nth q (hi_hashes idx) []) h = Lt) ->
  exists l st', get_chunk H fuel o dsz idx h st = (Done l, st') /\ H l = h.
Proof. exact c19_complete_ok. Qed.
Print Assumptions C19_complete.
Theorem C19_smallest_refuted :
  exists H fuel o dsz idx h st st' p,
    built idx /\ hi_count idx = List.length (hi_hashes idx) /\ no_failures o /\ (N.of_nat (hi_count idx) * csz <= src_size (hi_src idx) dsz)%N /\
    in_range idx p /\ p < hi_count idx /\ nth p (hi_hashes idx) [] = h /\
    (forall q, q < hi_count idx -> H (chunk_of (src_disk (hi_src idx) (io_disk st)) q) = nth q (hi_hashes idx) []) /\
    get_chunk H fuel o dsz idx h st = (Failed, st').
Proof. exact c19_smallest_refuted. Qed.
Print Assumptions C19_smallest_refuted.
Theorem C19_long_index_refuted :
  exists H fuel o dsz s file st idx st1 h st' p,
    no_failures o /\ index_open false H fuel o s dsz (Some file) st = (Done (Ok idx), st1) /\
    in_range idx p /\ p < hi_count idx /\ nth p (hi_hashes idx) [] = h /\ H (chunk_of (src_disk s (io_disk st)) p) = h /\
    get_chunk H fuel o dsz idx h st = (Failed, st').
Proof. exact c19_long_index_refuted. Qed.
Print Assumptions C19_long_index_refuted.
Theorem C20_adaptive : forall pg H zh fuel o dsz ss limit size tfile sd img ifile d0 r st',
  H (repeat 0%N (N.to_nat csz)) = zh ->
  match ifile with Some f => describes H f img /\ covers f img | None => True end ->
  adaptive_copy pg H zh fuel o dsz limit size tfile sd img ifile (mkIo 0 d0 []) = (r, st') ->
  same_outside 0 (lenN img) d0 (io_disk st') /\
  (r = Done (Ok tt) ->
     (size <= dsz)%N /\ (0 < limit -> size <= limit)%N /\
     holds_image H (io_disk st') img /\
     forall d', crash_at (List.length (io_trace st')) ss d0 (io_trace st') d' -> forall p, d' p = io_disk st' p).
Proof. exact c20_adaptive_ok. Qed.
Print Assumptions C20_adaptive.
Theorem C20_write_image : forall pg H zh fuel o dsz ss limit size methods datadir tfile sd img ifile d0 r st',
  H (repeat 0%N (N.to_nat csz)) = zh ->
  match ifile with Some f => describes H f img /\ covers f img | None => True end ->
  write_image_to_dev pg H zh fuel o dsz ss limit size methods datadir tfile sd img ifile (mkIo 0 d0 []) = (r, st') ->
  (* nothing behind the image is modified, whatever happens *)
  same_outside 0 (N.max size (lenN img)) d0 (io_disk st') /\
  (r = Done (Ok tt) ->
     (size <= dsz)%N /\ (0 < limit -> size <= limit)%N /\
     (size = 0%N \/ holds_image H (io_disk st') img) /\
     forall d', crash_at (List.length (io_trace st')) ss d0 (io_trace st') d' -> forall p, d' p = io_disk st' p).
Proof. exact c20_write_image_ok. Qed.
Print Assumptions C20_write_image.
Theorem C20_short_index_refuted :
  exists H fuel o dsz ss limit size methods tfile sd img f d0 st' p,
    no_failures o /\ describes H f img /\ size = lenN img /\
    write_image_to_dev false H (H (repeat 0%N (N.to_nat csz))) fuel o dsz ss limit size methods true tfile sd img (Some f) (mkIo 0 d0 []) = (Done (Ok tt), st') /\
    (p < lenN img)%N /\ io_disk st' p <> file_disk img p /\
    ~ collision H (chunk_of (io_disk st') (N.to_nat (p / csz))) (chunk_of (file_disk img) (N.to_nat (p / csz))).
Proof. exact c20_short_index_refuted. Qed.
Print Assumptions C20_short_index_refuted.
Theorem C20_small_target_refuted :
  exists H fuel o dsz ss limit size methods sd img ifile d0 st',
    no_failures o /\ (lenN img <= dsz)%N /\ size = lenN img /\
    write_image_to_dev true H (H (repeat 0%N (N.to_nat csz))) fuel o dsz ss limit size methods true None sd img ifile (mkIo 0 d0 []) = (Done Abort, st').
Proof. exact c20_small_target_refuted. Qed.
Print Assumptions C20_small_target_refuted.

(** ** runs that succeed *)
#[local] Transparent csz.
Definition ex_file (l : list byte) : list byte := flat_map (fun b => repeat b 32) l.
Definition ex_img (l : list byte) : list byte := flat_map blk l.
(** lookup of a chunk in a device of three chunks; the first two have the same hash, and the
    first one is no longer valid *)
Definition ex_disk (l : list byte) : disk := fun p => nth (N.to_nat (p / 4096)) l 9%N.
Example C19_example :
  match index_open false H32 100 good STarget (3 * 4096)%N None (mkIo 0 (ex_disk [7; 7; 5]%N) []) with
  | (Done (Ok idx), st) =>
      let '(r, st') := get_chunk H32 100 good (3 * 4096)%N (set_below idx 1) (repeat 7%N 32) st in
      r = Done (blk 7%N) /\ find_chunk (set_below idx 1) (repeat 7%N 32) = Some 1 /\ find_chunk (set_below idx 1) (repeat 6%N 32) = None
  | _ => False
  end.
Proof. vm_compute. auto. Qed.

(** the image is a permutation of the old content of the target plus one block of the seed *)
Definition ex_adaptive :=
  write_image_to_dev false H32 (repeat 0%N 32) 100 good (4 * 4096)%N 512 0 (4 * 4096)%N ["block-hash-index"] true
    None (Some (mkSeed (ex_disk [3; 4]%N) 8192%N None)) (ex_img [8; 0; 7; 4]%N) (Some (ex_file [8; 0; 7; 4]%N)) (mkIo 0 (ex_disk [7; 8; 1; 2]%N) []).
Example C20_example :
  fst ex_adaptive = Done (Ok tt) /\ map (io_disk (snd ex_adaptive)) [0; 4095; 4096; 8191; 8192; 12287; 12288; 16383]%N = [8; 8; 0; 0; 7; 7; 4; 4]%N.
Proof. split; vm_compute; reflexivity. Qed.
Example C20_example_hyps : H32 (repeat 0%N (N.to_nat csz)) = repeat 0%N 32 /\ describes H32 (ex_file [8; 0; 7; 4]%N) (ex_img [8; 0; 7; 4]%N) /\ covers (ex_file [8; 0; 7; 4]%N) (ex_img [8; 0; 7; 4]%N).
Proof.
  split; [vm_compute; reflexivity|]. split; [|vm_compute; discriminate]. intros p P _. vm_compute in P.
  destruct p as [|[|[|[|p]]]]; [vm_compute; reflexivity..|lia].
Qed.
