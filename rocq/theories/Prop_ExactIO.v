(** C17, C18: exact transfers, stream copy. *)
From Verif Require Import Base Disk ExactIO ExactIOSpec ExactIOProofs.

Theorem C17_pread : forall fuel o dsz off size st r st',
  pread_exact fuel o dsz off size st = (r, st') ->
  io_disk st' = io_disk st /\ io_trace st' = io_trace st /\
  (forall l, r = Done l -> l = dread (io_disk st) off (N.to_nat size) /\ (size = 0 \/ off + size <= dsz)%N) /\
  (r = Failed -> (exists k, io_k st <= k < io_k st' /\ o k = SFail) \/ (dsz < off + size)%N).
Proof. exact c17_pread_ok. Qed.
Print Assumptions C17_pread.
Theorem C17_pread_total : forall fuel o dsz off size st, no_failures o -> (0 < size)%N -> N.to_nat size < fuel ->
  ((off + size <= dsz)%N -> fst (pread_exact fuel o dsz off size st) = Done (dread (io_disk st) off (N.to_nat size))) /\
  ((dsz < off + size)%N -> fst (pread_exact fuel o dsz off size st) = Failed).
Proof. exact c17_pread_total_ok. Qed.
Print Assumptions C17_pread_total.
Theorem C17_pwrite : forall fuel o dsz off data st r st',
  pwrite_exact fuel o dsz off data st = (r, st') ->
  exists m tr, (m <= lenN data)%N /\ io_trace st' = io_trace st ++ tr /\
    consecutive off tr (firstn (N.to_nat m) data) /\
    (forall p, io_disk st' p = dwrite (io_disk st) off (firstn (N.to_nat m) data) p) /\
    (m = 0 \/ off + m <= dsz)%N /\
    (r = Done tt -> m = lenN data) /\
    (r = Failed -> (m < lenN data)%N /\ ((exists k, io_k st <= k < io_k st' /\ o k = SFail) \/ (dsz < off + lenN data)%N)).
Proof. exact c17_pwrite_ok. Qed.
Print Assumptions C17_pwrite.
Theorem C17_pwrite_total : forall fuel o dsz off data st, no_failures o -> data <> [] -> N.to_nat (lenN data) < fuel ->
  ((off + lenN data <= dsz)%N -> fst (pwrite_exact fuel o dsz off data st) = Done tt) /\
  ((dsz < off + lenN data)%N -> fst (pwrite_exact fuel o dsz off data st) = Failed).
Proof. exact c17_pwrite_total_ok. Qed.
Print Assumptions C17_pwrite_total.
Theorem C17_lazy : forall fuel o dsz off data st r st',
  pwrite_lazy fuel o dsz off data st = (r, st') ->
  exists m tr, (m <= lenN data)%N /\ io_trace st' = io_trace st ++ tr /\
    consecutive off tr (firstn (N.to_nat m) data) /\
    (forall p, io_disk st' p = dwrite (io_disk st) off (firstn (N.to_nat m) data) p) /\
    (r = Done tt -> forall p, io_disk st' p = dwrite (io_disk st) off data p) /\
    (* nothing is written when the data is already there *)
    (dread (io_disk st) off (List.length data) = data -> tr = []).
Proof. exact c17_lazy_ok. Qed.
Print Assumptions C17_lazy.
Theorem C17_read : forall fuel o dsz fdpos size st r fd' st',
  read_exact fuel o dsz fdpos size st = (r, fd', st') ->
  pread_exact fuel o dsz fdpos size st = (r, st') /\ (forall l, r = Done l -> fd' = (fdpos + size)%N).
Proof. exact c17_read_ok. Qed.
Print Assumptions C17_read.
Theorem C17_write : forall fuel o dsz fdpos data st r fd' st',
  write_exact fuel o dsz fdpos data st = (r, fd', st') ->
  pwrite_exact fuel o dsz fdpos data st = (r, st') /\ (r = Done tt -> fd' = (fdpos + lenN data)%N).
Proof. exact c17_write_ok. Qed.
Print Assumptions C17_write.
Theorem C18_copy : forall fuel o dsz size inp fdpos st r fd' st',
  copy_stream fuel o dsz size inp fdpos st = (r, fd', st') ->
  exists tr l rest, inp = l ++ rest /\ (lenN l <= size)%N /\ io_trace st' = io_trace st ++ tr /\
    consecutive fdpos tr l /\ (forall p, io_disk st' p = dwrite (io_disk st) fdpos l p) /\
    (lenN l = 0 \/ fdpos + lenN l <= dsz)%N /\
    (forall rest', r = Done rest' -> rest = rest' /\ fd' = (fdpos + lenN l)%N /\ (if (size =? 0)%N then l = [] else rest' = [])).
Proof. exact c18_copy_ok. Qed.
Print Assumptions C18_copy.
Theorem C18_copy_total : forall fuel o dsz size inp fdpos st, no_failures o -> 2 * List.length inp + 1 < fuel ->
  (fdpos + lenN inp <= dsz)%N -> (0 < size)%N -> (lenN inp <= size)%N ->
  exists fd' st', copy_stream fuel o dsz size inp fdpos st = (Done [], fd', st').
Proof. exact c18_copy_total_ok. Qed.
Print Assumptions C18_copy_total.
Theorem C18_short_refuted : exists fuel o dsz size inp fdpos st st' fd',
  (lenN inp < size)%N /\ copy_stream fuel o dsz size inp fdpos st = (Done [], fd', st').
Proof. exact c18_short_refuted. Qed.
Print Assumptions C18_short_refuted.

(** a schedule with interruptions, short transfers and an error *)
Definition ex_oracle : oracle := fun k => match k with 1 => SIntr | 3 => SCount 5 | 7 => SFail | _ => SCount (N.of_nat k) end.
Definition ex_dev : io := mkIo 0 (fun p => (p mod 256)%N) [].

Example C17_example :
  fst (pread_exact 20 ex_oracle 1000 100 7 ex_dev) = Done [100; 101; 102; 103; 104; 105; 106]%N /\
  fst (pread_exact 20 ex_oracle 103 100 7 ex_dev) = Failed /\
  fst (pread_exact 20 ex_oracle 1000 100 50 ex_dev) = Failed /\
  let '(r, st) := pwrite_exact 20 ex_oracle 1000 100 [9; 8; 7; 6; 5]%N ex_dev in
  r = Done tt /\ io_trace st = [EW 100 []; EW 100 [9; 8]; EW 102 [7; 6; 5]]%N /\ dread (io_disk st) 99 7 = [99; 9; 8; 7; 6; 5; 105]%N.
Proof. vm_compute. auto 10. Qed.

Example C17_total_example : no_failures (fun k => SCount (1 + N.of_nat (k mod 3))).
Proof. intros k. lia. Qed.

Example C18_example :
  let '(r, fd, st) := copy_stream 20 (fun _ => SCount 2) 1000 5 [9; 8; 7; 6; 5]%N 100 ex_dev in
  r = Done [] /\ fd = 105%N /\ io_trace st = [EW 100 [9; 8]; EW 102 [7; 6]; EW 104 [5]]%N.
Proof. vm_compute. auto. Qed.
