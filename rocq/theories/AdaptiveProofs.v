From Verif Require Import Base Disk DiskLemmas ExactIO ExactIOSpec ExactIOProofs BootRegion BootRegionSpec BootRegionProofs MbrProofs GptSpec GptProofs Emmc EmmcSpec EmmcProofs RawImageProofs
  HashIndex HashIndexSpec HashIndexProofs.

Lemma csz_pos : (0 < csz)%N. Proof. reflexivity. Qed.
Lemma csz_nz : csz <> 0%N. Proof. discriminate. Qed.
#[global] Opaque csz.

(** ** reading from a source *)
Definition keeps {A} (f : N -> io -> A * io) : Prop :=
  forall sz st r st', f sz st = (r, st') -> io_disk st' = io_disk st /\ io_trace st' = io_trace st.
Lemma with_src_spec {A} s dsz (f : N -> io -> A * io) st r st' : keeps f -> with_src s dsz f st = (r, st') ->
  io_disk st' = io_disk st /\ io_trace st' = io_trace st /\
  exists st0 st1, f (src_size s dsz) st0 = (r, st1) /\ io_disk st0 = src_disk s (io_disk st).
Proof.
  intros K H. destruct s as [|d size]; cbn [with_src src_size src_disk] in *.
  - destruct (K _ _ _ _ H). split; [assumption|]. split; [assumption|]. exists st, st'. auto.
  - destruct (f size (mkIo (io_k st) d [])) as [r0 st0] eqn:E. injection H as <- <-. cbn. split; [reflexivity|]. split; [reflexivity|].
    exists (mkIo (io_k st) d []), st0. auto.
Qed.
Lemma pread_keeps fuel o off size : keeps (fun sz => pread_exact fuel o sz off size).
Proof. intros sz st r st' H. apply c17_pread_ok in H. tauto. Qed.

Lemma c19_sound_ok : forall H fuel o dsz idx h st l st',
  built idx -> get_chunk H fuel o dsz idx h st = (Done l, st') ->
  (* nothing is written *)
  io_disk st' = io_disk st /\ io_trace st' = io_trace st /\
  (* a chunk in the valid range whose entry in the index is the hash *)
  (exists p, in_range idx p /\ p < List.length (hi_hashes idx) /\ nth p (hi_hashes idx) [] = h /\
     (N.of_nat p * csz + csz <= src_size (hi_src idx) dsz)%N /\ l = chunk_of (src_disk (hi_src idx) (io_disk st)) p) /\
  (* and whose content has been verified *)
  (hi_skip idx = false -> H l = h).
Proof.
  intros H fuel o dsz idx h st l st' B G. unfold get_chunk in G.
  destruct (Nat.eqb (hi_count idx) 0); [discriminate|]. destruct (find_chunk idx h) as [p|] eqn:F; [|discriminate].
  destruct (with_src _ _ _ _) as [rr st1] eqn:W. apply with_src_spec in W; [|apply pread_keeps]. destruct W as (D & T & s0 & s1 & R & S0).
  apply c17_pread_ok in R. destruct R as (_ & _ & R & _). apply (find_sound idx h B) in F. destruct F as (IR & PL & PH).
  assert (X : st' = st1 /\ rr = Done l /\ (hi_skip idx = false -> H l = h)).
  { destruct rr as [l0| |]; try discriminate. destruct (hi_skip idx); [injection G as <- <-; sp; auto; discriminate|].
    unfold digest_eqb in G. destruct (memcmp (H l0) h) eqn:M; try discriminate. injection G as <- <-. sp; auto. intros _. now apply memcmp_eq. }
  destruct X as (-> & -> & X). sp; auto. exists p. destruct (R l eq_refl) as [-> [Z|Z]]; [now apply csz_nz in Z|]. rewrite S0. sp; auto.
Qed.
Lemma get_chunk_keeps H fuel o dsz idx h st r st' : get_chunk H fuel o dsz idx h st = (r, st') -> io_disk st' = io_disk st /\ io_trace st' = io_trace st.
Proof.
  unfold get_chunk. destruct (Nat.eqb (hi_count idx) 0); [intros E; injection E as <- <-; auto|].
  destruct (find_chunk idx h); [|intros E; injection E as <- <-; auto].
  destruct (with_src _ _ _ _) as [rr st1] eqn:W. apply with_src_spec in W; [|apply pread_keeps]. destruct W as (D & T & _).
  destruct rr; intros E; [|injection E as <- <-; auto|injection E as <- <-; auto].
  destruct (hi_skip idx); [injection E as <- <-; auto|]. destruct (digest_eqb _ _); injection E as <- <-; auto.
Qed.

Lemma c19_complete_ok : forall H fuel o dsz idx h st p,
  built idx -> hi_count idx = List.length (hi_hashes idx) -> no_failures o -> N.to_nat csz < fuel ->
  (* the index covers existing data *)
  (N.of_nat (hi_count idx) * csz <= src_size (hi_src idx) dsz)%N ->
  (* chunk [p] is in the valid range, and chunks with this entry are intact *)
  in_range idx p -> p < hi_count idx -> nth p (hi_hashes idx) [] = h ->
  (forall q, in_range idx q -> q < hi_count idx -> nth q (hi_hashes idx) [] = h -> H (chunk_of (src_disk (hi_src idx) (io_disk st)) q) = h) ->
  (* there is no upper limit, or the hash is not the smallest one *)
  hi_from idx = None \/ (exists q, q < hi_count idx /\ memcmp (nth q (hi_hashes idx) []) h = Lt) ->
  exists l st', get_chunk H fuel o dsz idx h st = (Done l, st') /\ H l = h.
Proof.
  intros H fuel o dsz idx h st p B CN NF FU SZ IR PL PH OK Q.
  pose proof (find_complete idx h B p CN IR PL PH Q) as FC. unfold get_chunk.
  destruct (Nat.eqb_spec (hi_count idx) 0); [lia|]. destruct (find_chunk idx h) as [q|] eqn:F; [|congruence]. clear FC.
  apply (find_sound idx h B) in F. destruct F as (QR & QL & QH). rewrite <- CN in QL. specialize (OK q QR QL QH).
  assert (E : forall s0, io_disk s0 = src_disk (hi_src idx) (io_disk st) ->
    fst (pread_exact fuel o (src_size (hi_src idx) dsz) (N.of_nat q * csz) csz s0) = Done (chunk_of (src_disk (hi_src idx) (io_disk st)) q)).
  { intros s0 E0. destruct (c17_pread_total_ok fuel o (src_size (hi_src idx) dsz) (N.of_nat q * csz) csz s0 NF csz_pos FU) as [X _].
    rewrite X; [unfold chunk_of; now rewrite E0|]. eapply N.le_trans; [|exact SZ].
    replace (N.of_nat q * csz + csz)%N with (N.of_nat (q + 1) * csz)%N by lia. apply N.mul_le_mono_r. lia. }
  assert (W : exists st1, with_src (hi_src idx) dsz (fun sz => pread_exact fuel o sz (N.of_nat q * csz) csz) st = (Done (chunk_of (src_disk (hi_src idx) (io_disk st)) q), st1)).
  { destruct (hi_src idx) as [|d size]; cbn [with_src src_disk src_size] in *.
    - specialize (E st eq_refl). destruct (pread_exact _ _ _ _ _ st) as [r0 st1]. cbn in E. subst r0. eauto.
    - specialize (E (mkIo (io_k st) d []) eq_refl). destruct (pread_exact _ _ _ _ _ _) as [r0 st1]. cbn in E. subst r0. eauto. }
  destruct W as [st1 ->]. unfold digest_eqb. rewrite OK, memcmp_refl. destruct (hi_skip idx); eauto.
Qed.

(** ** opening *)
Lemma hash_loop_spec H fuel o sz n : forall fdpos st r st', hash_loop n H fuel o sz fdpos st = (r, st') ->
  io_disk st' = io_disk st /\ io_trace st' = io_trace st /\
  forall l, r = Done l -> l = map (fun i => H (dread (io_disk st) (fdpos + N.of_nat i * csz) (N.to_nat csz))) (seq 0 n).
Proof.
  induction n as [|m IH]; intros fdpos st r st' E; cbn [hash_loop] in E.
  - injection E as <- <-. sp; auto. intros l E. injection E as <-. reflexivity.
  - destruct (read_exact fuel o sz fdpos csz st) as [[r1 pos1] st1] eqn:R. apply c17_read_ok in R. destruct R as [R P].
    apply c17_pread_ok in R. destruct R as (D & T & R & _). destruct r1 as [l1| |].
    + destruct (hash_loop m H fuel o sz pos1 st1) as [r2 st2] eqn:L. apply IH in L. destruct L as (D2 & T2 & L).
      rewrite D in D2. rewrite T in T2.
      assert (X : st' = st2 /\ forall l, r = Done l -> exists l2, r2 = Done l2 /\ l = H l1 :: l2).
      { destruct r2 as [l2| |]; injection E as <- <-; split; auto; intros l Q; [|discriminate|discriminate]. injection Q as <-. eauto. }
      destruct X as [-> X]. sp; auto. intros l Q. destruct (X l Q) as (l2 & -> & ->). cbn [seq map]. f_equal.
      * destruct (R l1 eq_refl) as [-> _]. do 2 f_equal. lia.
      * rewrite (L l2 eq_refl), (P l1 eq_refl), D, <- seq_shift, map_map. apply map_ext. intros i. do 2 f_equal. lia.
    + injection E as <- <-. sp; auto. discriminate.
    + injection E as <- <-. sp; auto. discriminate.
Qed.
Lemma hash_file_spec pg H fuel o s dsz count st r st' : hash_file pg H fuel o s dsz count st = (r, st') ->
  io_disk st' = io_disk st /\ io_trace st' = io_trace st /\
  forall l, r = Done (Ok l) -> l = map (fun i => H (chunk_of (src_disk s (io_disk st)) i)) (seq 0 count).
Proof.
  unfold hash_file. destruct (pg && Nat.ltb count 9); intros E; (apply with_src_spec in E; [destruct E as (D & T & s0 & s1 & E & S0)|]).
  - sp; auto. intros l ->. destruct (hash_loop 1 H fuel o (src_size s dsz) 0 s0) as [[x| |] s2]; discriminate.
  - intros sz s0 r0 s1 L. destruct (hash_loop 1 H fuel o sz 0 s0) as [x s2] eqn:HL. apply hash_loop_spec in HL. destruct x; injection L as <- <-; tauto.
  - sp; auto. intros l ->. destruct (hash_loop count H fuel o (src_size s dsz) 0 s0) as [x s2] eqn:HL. apply hash_loop_spec in HL. destruct HL as (_ & _ & HL).
    destruct x; try discriminate. injection E as <- <-. rewrite (HL a eq_refl), S0. apply map_ext. intros i. unfold chunk_of. now rewrite N.add_0_l.
  - intros sz s0 r0 s1 L. destruct (hash_loop count H fuel o sz 0 s0) as [x s2] eqn:HL. apply hash_loop_spec in HL. destruct x; injection L as <- <-; tauto.
Qed.
Lemma count_spec size c : get_chunk_count size = Some c -> (N.of_nat c * csz = size)%N.
Proof.
  unfold get_chunk_count. destruct (size =? 0)%N; [discriminate|]. destruct (max_chunks <? size / csz)%N; [discriminate|].
  destruct (N.eqb_spec (size mod csz) 0) as [M|M]; [|discriminate]. cbn [negb]. intros E. injection E as <-.
  rewrite N2Nat.id. rewrite (N.mul_comm). symmetry. apply N.div_exact; [apply csz_nz|exact M].
Qed.
Lemma split32_length n l : List.length (split32 n l) = n.
Proof. revert l. induction n; intros l; cbn; [reflexivity|]. now rewrite IHn. Qed.

Lemma c19_open_ok : forall pg H fuel o s dsz file st r st',
  index_open pg H fuel o s dsz file st = (r, st') ->
  io_disk st' = io_disk st /\ io_trace st' = io_trace st /\
  forall idx, r = Done (Ok idx) ->
    built idx /\ hi_src idx = s /\ hi_below idx = 0 /\ hi_from idx = None /\ hi_skip idx = false /\
    exists n, (N.of_nat n * csz = src_size s dsz)%N /\
      match file with
      | Some f => hi_hashes idx = file_hashes f /\ hi_count idx = Nat.min n (List.length (file_hashes f))
      | None => hi_count idx = n /\ hi_hashes idx = map (fun i => H (chunk_of (src_disk s (io_disk st)) i)) (seq 0 n)
      end.
Proof.
  intros pg H fuel o s dsz file st r st' E. unfold index_open in E.
  destruct (get_chunk_count (src_size s dsz)) as [n|] eqn:C; [|injection E as <- <-; sp; auto; discriminate].
  apply count_spec in C. destruct file as [f|].
  - destruct (2 ^ 32 - 1 <=? lenN f)%N; [injection E as <- <-; sp; auto; discriminate|]. injection E as <- <-. sp; auto.
    intros idx E. injection E as <-. cbn. sp; auto; [split; cbn; [reflexivity|lia]|]. exists n. auto.
  - destruct (hash_file pg H fuel o s dsz n st) as [r1 st1] eqn:HF. apply hash_file_spec in HF. destruct HF as (D & T & L).
    assert (X : st' = st1 /\ forall idx, r = Done (Ok idx) -> exists hs, r1 = Done (Ok hs) /\ idx = prepare_index s n hs).
    { destruct r1 as [[hs| |]| |]; injection E as <- <-; split; auto; intros idx Q; try discriminate. injection Q as <-. eauto. }
    destruct X as [-> X]. sp; auto. intros idx Q. destruct (X idx Q) as (hs & -> & ->). specialize (L hs eq_refl).
    cbn. sp; auto; [split; cbn; [reflexivity|rewrite L, map_length, seq_length; lia]|]. exists n. auto.
Qed.

(** ** the copy loop *)
(** what an index promises while the target holds [t] *)
Definition trusted (H : list byte -> digest) (dsz : N) (t : disk) (idx : hidx) : Prop :=
  built idx /\
  (hi_skip idx = false \/
   forall p, in_range idx p -> p < List.length (hi_hashes idx) -> (N.of_nat p * csz + csz <= src_size (hi_src idx) dsz)%N ->
     H (chunk_of (src_disk (hi_src idx) t) p) = nth p (hi_hashes idx) []).
Lemma trusted_get H fuel o dsz idx h st l st' : trusted H dsz (io_disk st) idx ->
  get_chunk H fuel o dsz idx h st = (Done l, st') -> H l = h /\ lenN l = csz.
Proof.
  intros [B T] G. apply c19_sound_ok in G; [|exact B]. destruct G as (_ & _ & (p & IR & PL & PH & SZ & ->) & V).
  split; [|unfold chunk_of; now rewrite dread_lenN, N2Nat.id]. destruct T as [T|T]; [now apply V|]. now rewrite T.
Qed.
Lemma try_sources_spec H fuel o dsz h l : forall st r st', try_sources H fuel o dsz l h st = (r, st') ->
  io_disk st' = io_disk st /\ io_trace st' = io_trace st /\
  (Forall (trusted H dsz (io_disk st)) l -> forall x, r = Done x -> H x = h /\ lenN x = csz).
Proof.
  induction l as [|idx l IH]; intros st r st' E; cbn [try_sources] in E.
  - injection E as <- <-. sp; auto. discriminate.
  - destruct (get_chunk H fuel o dsz idx h st) as [r1 st1] eqn:G. pose proof (get_chunk_keeps _ _ _ _ _ _ _ _ _ G) as [D T].
    destruct r1 as [x| |].
    + injection E as <- <-. sp; auto. intros F y Q. injection Q as <-. inversion F; subst. eapply trusted_get; eassumption.
    + apply IH in E. destruct E as (D2 & T2 & E). rewrite D in *. rewrite T in *. sp; auto. intros F. inversion F; subst. auto.
    + injection E as <- <-. sp; auto. discriminate.
Qed.

Lemma chunk_of_out d c p l q : lenN l = csz -> q <> c -> (forall x, p x = dwrite d (N.of_nat c * csz) l x) -> chunk_of p q = chunk_of d q.
Proof.
  intros L NE E. unfold chunk_of. apply dread_ext. intros x Hx. rewrite E. apply dwrite_out. rewrite L. rewrite N2Nat.id in Hx.
  destruct (N.lt_ge_cases (N.of_nat q) (N.of_nat c)) as [Q|Q].
  - left. assert (N.of_nat (q + 1) * csz <= N.of_nat c * csz)%N by (apply N.mul_le_mono_r; lia). lia.
  - right. assert (N.of_nat (c + 1) * csz <= N.of_nat q * csz)%N by (apply N.mul_le_mono_r; lia). lia.
Qed.
Lemma chunk_of_in d c p l : lenN l = csz -> (forall x, p x = dwrite d (N.of_nat c * csz) l x) -> chunk_of p c = l.
Proof.
  intros L E. unfold chunk_of. replace (N.to_nat csz) with (List.length l) by (unfold lenN in L; lia).
  rewrite <- (dread_dwrite_same d (N.of_nat c * csz) l) at 2. apply dread_ext. intros; apply E.
Qed.

Lemma adaptive_loop_spec H zh fuel o dsz rest hs : H (repeat 0%N (N.to_nat csz)) = zh ->
  (forall idx, In idx rest -> forall t, trusted H dsz t idx) ->
  forall n written old c st r st',
  built written -> hi_src written = STarget -> hi_from written = Some c -> (forall p, p < List.length (hi_hashes written) -> nth p (hi_hashes written) [] = nth p hs []) ->
  built old -> hi_skip old = false ->
  (forall j, j < c -> H (chunk_of (io_disk st) j) = nth j hs []) ->
  adaptive_loop n H zh fuel o dsz written old rest hs c st = (r, st') ->
  (exists tr, io_trace st' = io_trace st ++ tr /\ (forall x, io_disk st' x = play (io_disk st) tr x) /\ tr_in (N.of_nat c * csz) (N.of_nat (c + n) * csz) tr) /\
  (r = Done tt -> forall j, j < c + n -> H (chunk_of (io_disk st') j) = nth j hs []).
Proof.
  intros ZH RT. induction n as [|m IH]; intros written old c st r st' BW SW FW HW BO SO INV E; cbn [adaptive_loop] in E.
  - injection E as <- <-. split; [|intros _ j Hj; apply INV; lia]. exists []. rewrite app_nil_r. sp; auto. apply tr_in_nil.
  - cbv zeta in E. match type of E with context [digest_eqb ?x zh] => remember x as h eqn:HH end.
    destruct (if digest_eqb h zh then (Done (repeat 0%N (N.to_nat csz)), st) else try_sources H fuel o dsz (written :: old :: rest) h st) as [r1 st1] eqn:SRC.
    assert (X : io_disk st1 = io_disk st /\ io_trace st1 = io_trace st /\ forall data, r1 = Done data -> H data = h /\ lenN data = csz).
    { destruct (digest_eqb h zh) eqn:Z.
      - injection SRC as <- <-. sp; auto. intros data Q. injection Q as <-. rewrite ZH, lenN_repeat, N2Nat.id. split; [|reflexivity].
        unfold digest_eqb in Z. destruct (memcmp h zh) eqn:M; try discriminate. now apply memcmp_eq in M.
      - apply try_sources_spec in SRC. destruct SRC as (D & T & SRC). sp; auto. apply SRC. constructor; [|constructor].
        + split; [exact BW|]. right. rewrite SW. intros p [_ PR] PL _. rewrite FW in PR. cbn [src_disk]. rewrite (HW p PL). now apply INV.
        + split; [exact BO|now left].
        + apply Forall_forall. intros idx I. now apply RT. }
    destruct X as (D1 & T1 & X).
    assert (N0 : forall rr, rr <> Done tt -> (rr, st1) = (r, st') ->
      (exists tr, io_trace st' = io_trace st ++ tr /\ (forall x, io_disk st' x = play (io_disk st) tr x) /\ tr_in (N.of_nat c * csz) (N.of_nat (c + S m) * csz) tr) /\
      (r = Done tt -> forall j, j < c + S m -> H (chunk_of (io_disk st') j) = nth j hs [])).
    { intros rr ND Q. injection Q as <- <-. split; [|contradiction]. exists []. rewrite app_nil_r, D1. sp; auto. apply tr_in_nil. }
    destruct r1 as [data| |]; [|eapply N0; [|exact E]; discriminate|eapply N0; [|exact E]; discriminate]. clear N0.
    destruct (X data eq_refl) as [HD LD].
    destruct (pwrite_lazy fuel o dsz (N.of_nat c * csz) data st1) as [r2 st2] eqn:W. apply c17_lazy_ok in W.
    destruct W as (k & tr & K & T2 & CO & D2 & R2 & _). rewrite T1 in T2. rewrite D1 in D2, R2.
    assert (TI : tr_in (N.of_nat c * csz) (N.of_nat (c + 1) * csz) tr).
    { eapply consecutive_in; [exact CO|]. rewrite lenN_firstn. eapply N.le_trans; [apply N.add_le_mono_l, N.le_min_r|]. replace (N.of_nat (c + 1) * csz)%N with (N.of_nat c * csz + csz)%N by lia. apply N.add_le_mono_l. rewrite <- LD. apply N.le_refl. }
    assert (PL : forall x, io_disk st2 x = play (io_disk st) tr x) by (intros x; rewrite D2; symmetry; apply (consecutive_play _ _ _ CO)).
    assert (MONO : (N.of_nat (c + 1) * csz <= N.of_nat (c + S m) * csz)%N) by (apply N.mul_le_mono_r; lia).
    assert (N2 : forall rr, rr <> Done tt -> (rr, st2) = (r, st') ->
      (exists tr, io_trace st' = io_trace st ++ tr /\ (forall x, io_disk st' x = play (io_disk st) tr x) /\ tr_in (N.of_nat c * csz) (N.of_nat (c + S m) * csz) tr) /\
      (r = Done tt -> forall j, j < c + S m -> H (chunk_of (io_disk st') j) = nth j hs [])).
    { intros rr ND Q. injection Q as <- <-. split; [|contradiction]. exists tr. sp; auto. eapply tr_in_weaken; [| |exact TI]; lia. }
    destruct r2 as [[]| |]; [|eapply N2; [|exact E]; discriminate|eapply N2; [|exact E]; discriminate]. clear N2.
    specialize (R2 eq_refl).
    apply IH in E; cbn; auto.
    + destruct E as [(tr' & T3 & D3 & I3) OK]. split; [|intros R j Hj; apply OK; [exact R|lia]].
      exists (tr ++ tr'). rewrite T3, T2, app_assoc. sp; auto.
      * intros x. rewrite D3, play_app. apply play_ext, PL.
      * apply tr_in_app. split; [eapply tr_in_weaken; [| |exact TI]; lia|]. replace (c + S m) with (c + 1 + m) by lia.
        eapply tr_in_weaken; [| |exact I3]; [apply N.mul_le_mono_r; lia|lia].
    + intros j Hj. destruct (Nat.eq_dec j c) as [->|NE].
      * rewrite (chunk_of_in _ _ _ _ LD R2), HD; exact HH.
      * rewrite (chunk_of_out _ _ _ _ _ LD NE R2). apply INV. lia.
Qed.

(** ** the whole copy *)
Lemma file_chunk_in (img : list byte) p : (N.of_nat p * csz + csz <= lenN img)%N -> (N.of_nat (p + 1) * csz <= lenN img)%N.
Proof. intros H. replace (N.of_nat (p + 1) * csz)%N with (N.of_nat p * csz + csz)%N by lia. exact H. Qed.

Lemma nth_map_seq {A} (f : nat -> A) n p d : p < n -> nth p (map f (seq 0 n)) d = f p.
Proof. intros P. rewrite (nth_indep _ d (f 0)) by (rewrite map_length, seq_length; exact P). rewrite map_nth, seq_nth by exact P. reflexivity. Qed.

Lemma nth_firstn_lt {A} n p (l : list A) d : p < n -> nth p (firstn n l) d = nth p l d.
Proof. revert p l. induction n; intros p l P; [lia|]. destruct l; [now destruct p|]. destruct p; cbn; [reflexivity|]. apply IHn. lia. Qed.
Lemma sys_fsync_spec o st ok st' : sys_fsync o st = (ok, st') -> io_disk st' = io_disk st /\ io_trace st' = io_trace st ++ (if ok then [ESync] else []).
Proof. unfold sys_fsync. destruct (o (io_k st)); intros E; injection E as <- <-; cbn; rewrite ?app_nil_r; auto. Qed.

Lemma adaptive_spec : forall pg H zh fuel o dsz limit size tfile sd img ifile st r st',
  H (repeat 0%N (N.to_nat csz)) = zh ->
  match ifile with Some f => describes H f img | None => True end ->
  adaptive_copy pg H zh fuel o dsz limit size tfile sd img ifile st = (r, st') ->
  exists tr, io_trace st' = io_trace st ++ tr /\ (forall x, io_disk st' x = play (io_disk st) tr x) /\ tr_in 0 (lenN img) tr /\
  (r = Done (Ok tt) ->
     (exists tr0, tr = tr0 ++ [ESync]) /\ (size <= dsz)%N /\ (0 < limit -> size <= limit)%N /\
     exists n, (N.of_nat n * csz = lenN img)%N /\
     forall j, j < n -> match ifile with Some f => j < List.length (file_hashes f) | None => True end ->
       H (chunk_of (io_disk st') j) = H (chunk_of (file_disk img) j)).
Proof.
  intros pg H zh fuel o dsz limit size tfile sd img ifile st r st' ZH DE E. unfold adaptive_copy in E.
  assert (N0 : forall rr st1, rr <> Done (Ok tt) -> io_disk st1 = io_disk st -> io_trace st1 = io_trace st -> (rr, st1) = (r, st') ->
    exists tr, io_trace st' = io_trace st ++ tr /\ (forall x, io_disk st' x = play (io_disk st) tr x) /\ tr_in 0 (lenN img) tr /\
    (r = Done (Ok tt) ->
     (exists tr0, tr = tr0 ++ [ESync]) /\ (size <= dsz)%N /\ (0 < limit -> size <= limit)%N /\
     exists n, (N.of_nat n * csz = lenN img)%N /\
     forall j, j < n -> match ifile with Some f => j < List.length (file_hashes f) | None => True end ->
       H (chunk_of (io_disk st') j) = H (chunk_of (file_disk img) j))).
  { intros rr st1 ND D T Q. injection Q as <- <-. exists []. rewrite app_nil_r, D. sp; auto; [apply tr_in_nil|contradiction]. }
  destruct (sys_ok o st) as [ok0 st0] eqn:E0. apply sys_ok_spec in E0 as [D0 T0].
  destruct ok0; cbn [negb] in E; [|eapply N0; [| | |exact E]; [discriminate|congruence|congruence]].
  destruct (index_open pg H fuel o STarget dsz tfile st0) as [r1 st1] eqn:O1. apply c19_open_ok in O1. destruct O1 as (D1 & T1 & O1).
  destruct r1 as [[old| |]| |]; try (eapply N0; [| | |exact E]; [discriminate|congruence|congruence]).
  specialize (O1 old eq_refl). destruct O1 as (BO & _ & _ & _ & SO & _).
  destruct (check_image_size dsz limit size) eqn:CK; cbn [negb] in E; [|eapply N0; [| | |exact E]; [discriminate|congruence|congruence]].
  destruct (match sd with Some _ => sys_ok o st1 | None => (true, st1) end) as [ok2 st2] eqn:E2.
  assert (X2 : io_disk st2 = io_disk st1 /\ io_trace st2 = io_trace st1) by (destruct sd; [now apply sys_ok_spec in E2|injection E2 as <- <-; auto]).
  destruct X2 as [D2 T2]. destruct ok2; cbn [negb] in E; [|eapply N0; [| | |exact E]; [discriminate|congruence|congruence]].
  match type of E with (let (_, _) := ?m in _) = _ => destruct m as [r3 st3] eqn:O3 end.
  assert (X3 : io_disk st3 = io_disk st2 /\ io_trace st3 = io_trace st2 /\ forall l, r3 = Done (Ok l) -> forall idx, In idx l -> built idx /\ hi_skip idx = false).
  { destruct sd as [s|].
    - destruct (index_open pg H fuel o (SOther (sd_disk s) (sd_size s)) dsz (sd_file s) st2) as [q s3] eqn:O. apply c19_open_ok in O. destruct O as (D & T & O).
      destruct q as [[i| |]| |]; injection O3 as <- <-; sp; auto; try discriminate.
      intros l Q idx HI. injection Q as <-. destruct HI as [<-|[]]. destruct (O i eq_refl) as (B & _ & _ & _ & S0 & _). auto.
    - injection O3 as <- <-. sp; auto. intros l Q idx HI. injection Q as <-. destruct HI. }
  destruct X3 as (D3 & T3 & SEEDS).
  destruct r3 as [[seeds| |]| |]; try (eapply N0; [| | |exact E]; [discriminate|congruence|congruence]).
  specialize (SEEDS seeds eq_refl).
  destruct (sys_ok o st3) as [ok4 st4] eqn:E4. apply sys_ok_spec in E4 as [D4 T4].
  destruct ok4; cbn [negb] in E; [|eapply N0; [| | |exact E]; [discriminate|congruence|congruence]].
  destruct (index_open pg H fuel o (SOther (file_disk img) (lenN img)) dsz ifile st4) as [r5 st5] eqn:O5. apply c19_open_ok in O5. destruct O5 as (D5 & T5 & O5).
  destruct r5 as [[source0| |]| |]; try (eapply N0; [| | |exact E]; [discriminate|congruence|congruence]).
  destruct (O5 source0 eq_refl) as (BS & SS & LB & LF & SK & n & NS & HS). cbn [src_size] in NS. clear O5.
  cbv zeta in E. destruct (index_reuse (set_skip source0) STarget dsz) as [w|] eqn:RU; [|eapply N0; [| | |exact E]; [discriminate|congruence|congruence]].
  (* every entry of the source index used describes the image *)
  assert (ENT : forall p, p < List.length (hi_hashes source0) -> (N.of_nat p * csz + csz <= lenN img)%N -> H (chunk_of (file_disk img) p) = nth p (hi_hashes source0) []).
  { intros p PL PS. destruct ifile as [f|].
    - destruct HS as [HS _]. rewrite HS in *. symmetry. apply DE; [exact PL|now apply file_chunk_in].
    - destruct HS as [_ HS]. rewrite HS in *. rewrite map_length, seq_length in PL. now rewrite nth_map_seq. }
  assert (CN : hi_count source0 <= n) by (destruct ifile; destruct HS as [? HS]; lia).
  assert (BW : built w /\ hi_src w = STarget /\ forall p, p < List.length (hi_hashes w) -> nth p (hi_hashes w) [] = nth p (hi_hashes source0) []).
  { unfold index_reuse in RU. destruct (get_chunk_count _) as [cc|]; [|discriminate]. injection RU as <-. unfold prepare_index, built; cbn [hi_lookup hi_hashes hi_count hi_src set_skip].
    destruct BS as [_ BS]. rewrite firstn_length. sp; auto; [lia|]. intros p PL. apply nth_firstn_lt. lia. }
  destruct BW as (BW & SW & HW).
  destruct (adaptive_loop (hi_count (set_skip source0)) H zh fuel o dsz (set_skip (set_from w 0)) old (seeds ++ [set_skip source0]) (hi_hashes (set_skip source0)) 0 st5) as [r6 st6] eqn:L.
  apply adaptive_loop_spec in L; auto.
  2:{ intros idx HI t. apply in_app_iff in HI. destruct HI as [HI|[<-|[]]].
      - destruct (SEEDS idx HI). split; auto.
      - split; [destruct BS; split; auto|]. right. intros p _ PL PS. unfold set_skip in PL, PS. cbn [hi_src hi_hashes] in PL, PS. rewrite SS in PS.
        unfold set_skip. cbn [hi_src hi_hashes]. rewrite SS. cbn [src_disk src_size] in *. now apply ENT. }
  2:{ intros j Hj; lia. }
  destruct L as [(tr & T6 & P6 & I6) OK]. cbn [N.of_nat N.mul] in I6. unfold set_skip in I6, OK. cbn [hi_count hi_hashes plus] in I6, OK.
  assert (D : io_disk st5 = io_disk st) by congruence. assert (T : io_trace st5 = io_trace st) by congruence. rewrite D in P6. rewrite T in T6.
  assert (I : tr_in 0 (lenN img) tr).
  { eapply tr_in_weaken; [| |exact I6]; [lia|]. rewrite <- NS. apply N.mul_le_mono_r. lia. }
  destruct r6 as [[]| |].
  2,3: injection E as <- <-; exists tr; sp; auto; discriminate.
  destruct (sys_fsync o st6) as [ok7 st7] eqn:F. apply sys_fsync_spec in F.
  destruct F as [D7 T7].
  destruct ok7.
  - injection E as <- <-. exists (tr ++ [ESync]). rewrite T7, T6, app_assoc. sp; auto.
    + intros x. rewrite D7, play_app. cbn [play]. apply P6.
    + apply tr_in_app. split; [exact I|apply tr_in_sync].
    + intros _. sp; [eauto| | |].
      * unfold check_image_size in CK. apply andb_true_iff in CK as [K1 K2]. rewrite negb_true_iff in *. now apply N.ltb_ge in K2.
      * unfold check_image_size in CK. apply andb_true_iff in CK as [K1 K2]. rewrite negb_true_iff in *. intros L. apply N.ltb_lt in L. rewrite L in K1. cbn [andb] in K1. now apply N.ltb_ge in K1.
      * exists n. split; [exact NS|]. intros j Hj IF. rewrite D7.
        assert (JL : j < hi_count source0) by (destruct ifile; destruct HS as [? HS]; lia).
        rewrite OK by (auto; lia). symmetry. apply ENT; [destruct BS; lia|]. rewrite <- NS.
        replace (N.of_nat j * csz + csz)%N with (N.of_nat (j + 1) * csz)%N by lia. apply N.mul_le_mono_r. lia.
  - injection E as <- <-. exists tr. rewrite T7, app_nil_r, T6. rewrite D7. sp; auto. discriminate.
Qed.

Lemma chunk_nth d q p : (N.of_nat q * csz <= p)%N -> (p < N.of_nat q * csz + csz)%N -> nth (N.to_nat (p - N.of_nat q * csz)) (chunk_of d q) 0%N = d p.
Proof.
  intros A B. unfold chunk_of. rewrite dread_nth by lia. f_equal. lia.
Qed.
Lemma bytes_dec (a b : list byte) : {a = b} + {a <> b}. Proof. apply list_eq_dec, N.eq_dec. Qed.
Lemma holds_of_chunks H d img n : (N.of_nat n * csz = lenN img)%N ->
  (forall j, j < n -> H (chunk_of d j) = H (chunk_of (file_disk img) j)) -> holds_image H d img.
Proof.
  intros N C p P. set (q := N.to_nat (p / csz)). assert (Q : (N.of_nat q * csz <= p < N.of_nat q * csz + csz)%N).
  { unfold q. rewrite N2Nat.id. pose proof (N.div_mod p csz csz_nz). pose proof (N.mod_lt p csz csz_nz). lia. }
  assert (L : q < n).
  { unfold q. assert (p / csz < N.of_nat n)%N as X; [|clear - X; lia]. apply N.div_lt_upper_bound; [apply csz_nz|]. rewrite N.mul_comm, N. exact P. }
  destruct (bytes_dec (chunk_of d q) (chunk_of (file_disk img) q)) as [E|NE].
  - left. rewrite <- (chunk_nth d q p), <- (chunk_nth (file_disk img) q p) by lia. now rewrite E.
  - right. split; [exact NE|]. now apply C.
Qed.

Lemma c20_adaptive_ok : forall pg H zh fuel o dsz ss limit size tfile sd img ifile d0 r st',
  H (repeat 0%N (N.to_nat csz)) = zh ->
  match ifile with Some f => describes H f img /\ covers f img | None => True end ->
  adaptive_copy pg H zh fuel o dsz limit size tfile sd img ifile (mkIo 0 d0 []) = (r, st') ->
  same_outside 0 (lenN img) d0 (io_disk st') /\
  (r = Done (Ok tt) ->
     (size <= dsz)%N /\ (0 < limit -> size <= limit)%N /\
     holds_image H (io_disk st') img /\
     forall d', crash_at (List.length (io_trace st')) ss d0 (io_trace st') d' -> forall p, d' p = io_disk st' p).
Proof.
  intros pg H zh fuel o dsz ss limit size tfile sd img ifile d0 r st' ZH DE E. apply adaptive_spec in E; [|exact ZH|destruct ifile; tauto].
  destruct E as (tr & T & P & I & R). cbn [io_trace io_disk app] in T, P. split.
  - intros p Hp. rewrite P. eapply tr_in_play; eassumption.
  - intros OK. destruct (R OK) as ((tr0 & E0) & S1 & S2 & n & N & C). sp; auto.
    + eapply holds_of_chunks; [exact N|]. intros j Hj. apply C; [exact Hj|]. destruct ifile as [f|]; [|exact Logic.I]. destruct DE as [_ CV].
      unfold covers in CV. unfold lenN at 2 in CV. rewrite <- N in CV. apply N.mul_le_mono_pos_r in CV; [lia|apply csz_pos].
    + intros d' CR p. rewrite P. rewrite T, E0 in *. transitivity (play d0 tr0 p); [eapply crash_at_full; [exact CR|reflexivity]|now rewrite play_app].
Qed.

Lemma copy_to_dev_spec fuel o dsz ss limit img size st r st' : copy_to_dev fuel o dsz ss limit img size st = (r, st') ->
  exists tr, io_trace st' = io_trace st ++ tr /\ (forall x, io_disk st' x = play (io_disk st) tr x) /\ tr_in 0 size tr /\
  (r = Done tt -> (exists tr0, tr = tr0 ++ [ESync]) /\ (size <= dsz)%N /\ (0 < limit -> size <= limit)%N /\ (size = 0 \/ lenN img = size)%N /\
     dread (io_disk st') 0 (N.to_nat size) = firstn (N.to_nat size) img).
Proof.
  intros H. unfold copy_to_dev in H.
  destruct (sys_ok o _) as [ok1 st1] eqn:E1. apply sys_ok_spec in E1 as [D1 T1].
  assert (N0 : forall rr, rr <> Done tt -> (rr, st1) = (r, st') -> exists tr, io_trace st' = io_trace st ++ tr /\ (forall x, io_disk st' x = play (io_disk st) tr x) /\ tr_in 0 size tr /\
    (r = Done tt -> (exists tr0, tr = tr0 ++ [ESync]) /\ (size <= dsz)%N /\ (0 < limit -> size <= limit)%N /\ (size = 0 \/ lenN img = size)%N /\
     dread (io_disk st') 0 (N.to_nat size) = firstn (N.to_nat size) img)).
  { intros rr ND E. injection E as <- <-. exists []. rewrite app_nil_r, D1. sp; auto; [apply tr_in_nil|contradiction]. }
  destruct ok1; cbn [negb] in H; [|apply (N0 Failed ltac:(discriminate) H)].
  destruct (check_image_size dsz limit size) eqn:CK; cbn [negb] in H; [|apply (N0 Failed ltac:(discriminate) H)].
  destruct (copy_raw_image fuel o dsz ss img size 0 0 st1) as [r6 st6] eqn:E6. apply copy_raw_spec in E6.
  destruct E6 as (tr & Tr & P & done & SH & R). cbn [N.to_nat firstn skipn] in SH. apply raw_shape_plain in SH. destruct SH as [I SH].
  rewrite T1 in Tr. rewrite D1 in P. rewrite N.add_0_l in I.
  destruct r6 as [[]| |].
  2,3: injection H as <- <-; exists tr; sp; auto; discriminate.
  destruct (sys_ok o st6) as [ok7 st7] eqn:E7. apply sys_ok_spec in E7 as [D7 T7]. injection H as <- <-. rewrite D7, T7. exists tr. sp; auto.
  intros OK. destruct (SH (R eq_refl)) as (body & E & CB & FS).
  unfold check_image_size in CK. apply andb_true_iff in CK as [K1 K2]. rewrite negb_true_iff in *. apply N.ltb_ge in K2.
  sp; auto; [eauto| |].
  - intros L. apply N.ltb_lt in L. rewrite L in K1. cbn [andb] in K1. now apply N.ltb_ge in K1.
  - assert (LEN : N.to_nat size = List.length (firstn (N.to_nat size) img)).
    { rewrite firstn_length. unfold lenN in FS. lia. }
    rewrite LEN at 1. rewrite <- (dread_dwrite_same (io_disk st) 0 (firstn (N.to_nat size) img)) at 2. apply dread_ext. intros p _.
    rewrite P, E, play_app. cbn [play]. apply (consecutive_play _ _ _ CB).
Qed.

Lemma c20_write_image_ok : forall pg H zh fuel o dsz ss limit size methods datadir tfile sd img ifile d0 r st',
  H (repeat 0%N (N.to_nat csz)) = zh ->
  match ifile with Some f => describes H f img /\ covers f img | None => True end ->
  write_image_to_dev pg H zh fuel o dsz ss limit size methods datadir tfile sd img ifile (mkIo 0 d0 []) = (r, st') ->
  (* nothing behind the image is modified, whatever happens *)
  same_outside 0 (N.max size (lenN img)) d0 (io_disk st') /\
  (r = Done (Ok tt) ->
     (size <= dsz)%N /\ (0 < limit -> size <= limit)%N /\
     (size = 0%N \/ holds_image H (io_disk st') img) /\
     forall d', crash_at (List.length (io_trace st')) ss d0 (io_trace st') d' -> forall p, d' p = io_disk st' p).
Proof.
  intros pg H zh fuel o dsz ss limit size methods datadir tfile sd img ifile d0 r st' ZH DE E. unfold write_image_to_dev in E.
  set (raw := fun st => match copy_to_dev fuel o dsz ss limit img size st with (Done _, st1) => (Done (Ok tt), st1) | (Failed, st1) => (Failed, st1) | (Running, st1) => (Running, st1) end) in E.
  assert (RAW : forall st, io_trace st = io_trace st -> (exists tr1, io_trace st = tr1 /\ (forall x, io_disk st x = play d0 tr1 x) /\ tr_in 0 (lenN img) tr1) -> raw st = (r, st') ->
    same_outside 0 (N.max size (lenN img)) d0 (io_disk st') /\
    (r = Done (Ok tt) -> (size <= dsz)%N /\ (0 < limit -> size <= limit)%N /\ (size = 0%N \/ holds_image H (io_disk st') img) /\
     forall d', crash_at (List.length (io_trace st')) ss d0 (io_trace st') d' -> forall p, d' p = io_disk st' p)).
  { intros st _ (tr1 & T1 & P1 & I1) Q. unfold raw in Q. destruct (copy_to_dev fuel o dsz ss limit img size st) as [q s2] eqn:C. apply copy_to_dev_spec in C.
    destruct C as (tr & T & P & I & R).
    assert (PP : forall x, io_disk s2 x = play d0 (tr1 ++ tr) x) by (intros x; rewrite P, play_app; apply play_ext, P1).
    assert (II : tr_in 0 (N.max size (lenN img)) (tr1 ++ tr)) by (apply tr_in_app; split; [eapply tr_in_weaken; [| |exact I1]|eapply tr_in_weaken; [| |exact I]]; lia).
    rewrite T1 in T. assert (S' : st' = s2) by (destruct q; injection Q as <- <-; reflexivity). subst st'. split.
    - intros p Hp. rewrite PP. eapply tr_in_play; eassumption.
    - intros ->. assert (q = Done tt) by (destruct q as [[]| |]; congruence). destruct (R H0) as ((tr0 & E0) & S1 & S2 & S3 & S4). sp; auto.
      + destruct S3 as [S3|S3]; [now left|right]. intros p Pp. left.
        assert (X : nth (N.to_nat p) (dread (io_disk s2) 0 (N.to_nat size)) 0%N = io_disk s2 p) by (rewrite dread_nth by lia; f_equal; lia).
        rewrite <- X, S4. unfold file_disk. apply nth_firstn_lt. lia.
      + intros d' CR p. rewrite PP. rewrite T, E0 in *. rewrite app_assoc in *. transitivity (play d0 (tr1 ++ tr0) p); [eapply crash_at_full; [exact CR|reflexivity]|symmetry; exact (f_equal (fun f => f p) (play_app d0 (tr1 ++ tr0) [ESync]))]. }
  assert (NIL : exists tr1 : list ev, ([] : list ev) = tr1 /\ (forall x, d0 x = play d0 tr1 x) /\ tr_in 0 (lenN img) tr1) by (exists []; sp; auto; apply tr_in_nil).
  destruct (datadir && existsb (String.eqb "block-hash-index") methods); [|exact (RAW (mkIo 0 d0 []) eq_refl NIL E)].
  destruct (adaptive_copy pg H zh fuel o dsz limit size tfile sd img ifile (mkIo 0 d0 [])) as [q s1] eqn:A.
  pose proof (c20_adaptive_ok pg H zh fuel o dsz ss limit size tfile sd img ifile d0 q s1 ZH DE A) as [SO OK].
  apply adaptive_spec in A; [|exact ZH|destruct ifile; tauto]. destruct A as (tr & T & P & I & _). cbn [io_trace io_disk app] in T, P.
  assert (K : exists tr1 : list ev, io_trace s1 = tr1 /\ (forall x, io_disk s1 x = play d0 tr1 x) /\ tr_in 0 (lenN img) tr1) by (exists tr; auto).
  assert (SO2 : same_outside 0 (N.max size (lenN img)) d0 (io_disk s1)) by (intros p Hp; apply SO; lia).
  destruct q as [[[]| |]| |].
  - injection E as <- <-. split; [exact SO2|]. intros _. destruct (OK eq_refl) as (A1 & A2 & A3 & A4). sp; auto.
  - exact (RAW s1 eq_refl K E).
  - injection E as <- <-. split; [exact SO2|discriminate].
  - exact (RAW s1 eq_refl K E).
  - injection E as <- <-. split; [exact SO2|discriminate].
Qed.
