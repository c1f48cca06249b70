From Verif Require Import Base Disk DiskLemmas ExactIO ExactIOSpec.

Ltac sp := repeat match goal with |- _ /\ _ => split end.

Lemma consecutive_play off tr l : consecutive off tr l -> forall d p, play d tr p = dwrite d off l p.
Proof.
  induction 1; intros d p; [now rewrite play_nil, dwrite_nil|]. rewrite play_cons. cbn [ev_apply]. rewrite IHconsecutive. apply dwrite_app.
Qed.
Lemma consecutive_app off a la b lb : consecutive off a la -> consecutive (off + lenN la) b lb -> consecutive off (a ++ b) (la ++ lb).
Proof.
  intros H. revert b lb. induction H; intros b lb Hb.
  - cbn. rewrite lenN_nil, N.add_0_r in Hb. exact Hb.
  - cbn. rewrite <- app_assoc. constructor. apply IHconsecutive. rewrite lenN_app in Hb.
    now replace (off + lenN a + lenN l)%N with (off + (lenN a + lenN l))%N by lia.
Qed.
Lemma consecutive_snoc off tr l a : consecutive off tr l -> consecutive off (tr ++ [EW (off + lenN l) a]) (l ++ a).
Proof.
  intros H. replace (l ++ a) with (l ++ (a ++ [])) by now rewrite app_nil_r.
  eapply consecutive_app; [exact H|]. constructor. constructor.
Qed.

(** ** pread *)
Lemma pread_loop_spec fuel : forall o dsz off size acc st r st',
  pread_loop fuel o dsz off size acc st = (r, st') ->
  acc = dread (io_disk st) off (N.to_nat (lenN acc)) -> (lenN acc <= size)%N -> (lenN acc = 0 \/ off + lenN acc <= dsz)%N ->
  io_disk st' = io_disk st /\ io_trace st' = io_trace st /\ io_k st <= io_k st' /\
  (forall l, r = Done l -> l = dread (io_disk st) off (N.to_nat size) /\ (size = 0 \/ off + size <= dsz)%N) /\
  (r = Failed -> (exists k, io_k st <= k < io_k st' /\ o k = SFail) \/ (dsz < off + size)%N).
Proof.
  induction fuel as [|f IH]; intros o dsz off size acc st r st' H A L B; cbn in H.
  - destruct (N.ltb_spec (lenN acc) size).
    + injection H as <- <-. sp; auto; try discriminate.
    + injection H as <- <-. assert (E : lenN acc = size) by lia. sp; auto; try discriminate.
      intros l X. injection X as <-. split; [now rewrite <- E|lia].
  - destruct (N.ltb_spec (lenN acc) size) as [LT|GE].
    + unfold sys_pread in H. destruct (o (io_k st)) as [| |c] eqn:O.
      * apply IH in H; auto. cbn [io_disk io_trace io_k] in H. destruct H as (D & T & K & R & F).
        sp; auto; try lia.
        intros E. destruct (F E) as [(k & Hk & Ek)|]; [left; exists k; split; [lia|exact Ek]|now right].
      * injection H as <- <-. cbn. sp; auto; try discriminate. intros _. left. exists (io_k st). split; [lia|exact O].
      * destruct (N.leb_spec dsz (off + lenN acc)) as [E|E].
        -- injection H as <- <-. cbn. sp; auto; try discriminate. intros _. right. lia.
        -- set (m := N.to_nat (N.min (N.max 1 c) (N.min (size - lenN acc) (dsz - (off + lenN acc))))) in *.
           assert (M : (1 <= N.of_nat m)%N /\ (N.of_nat m <= size - lenN acc)%N /\ (N.of_nat m <= dsz - (off + lenN acc))%N) by lia.
           destruct (dread (io_disk st) (off + lenN acc) m) as [|x l] eqn:DR.
           { apply (f_equal (@List.length _)) in DR. rewrite dread_length in DR. cbn in DR. lia. }
           assert (LN : lenN (acc ++ x :: l) = (lenN acc + N.of_nat m)%N).
           { rewrite <- DR. autorewrite with len. reflexivity. }
           apply IH in H; cbn [io_disk io_trace io_k] in *.
           ++ destruct H as (D & T & K & R & F). sp; auto; try lia.
              intros X. destruct (F X) as [(k & Hk & Ek)|]; [left; exists k; split; [lia|exact Ek]|now right].
           ++ rewrite LN. replace (N.to_nat (lenN acc + N.of_nat m)) with (N.to_nat (lenN acc) + m) by lia.
              rewrite dread_app. rewrite <- A at 1. f_equal. rewrite N2Nat.id. now rewrite DR.
           ++ lia.
           ++ lia.
    + injection H as <- <-. assert (E : lenN acc = size) by lia. sp; auto; try discriminate.
      intros l X. injection X as <-. split; [now rewrite <- E|lia].
Qed.

Lemma c17_pread_ok : forall fuel o dsz off size st r st',
  pread_exact fuel o dsz off size st = (r, st') ->
  io_disk st' = io_disk st /\ io_trace st' = io_trace st /\
  (forall l, r = Done l -> l = dread (io_disk st) off (N.to_nat size) /\ (size = 0 \/ off + size <= dsz)%N) /\
  (r = Failed -> (exists k, io_k st <= k < io_k st' /\ o k = SFail) \/ (dsz < off + size)%N).
Proof.
  intros fuel o dsz off size st r st' H. unfold pread_exact in H.
  apply pread_loop_spec in H; [|reflexivity|rewrite lenN_nil; lia|now left]. tauto.
Qed.

Lemma pread_loop_total fuel : forall o dsz off size acc st, no_failures o -> (N.to_nat (size - lenN acc) < fuel) ->
  fst (pread_loop fuel o dsz off size acc st) <> Running.
Proof.
  induction fuel as [|f IH]; intros o dsz off size acc st NF L; [lia|]. cbn.
  destruct (N.ltb_spec (lenN acc) size); [|discriminate].
  unfold sys_pread. specialize (NF (io_k st)) as N1. destruct (o (io_k st)); try contradiction.
  destruct (N.leb_spec dsz (off + lenN acc)); [discriminate|].
  set (m := N.to_nat _). destruct (dread (io_disk st) (off + lenN acc) m) as [|x l] eqn:DR.
  { discriminate. }
  apply IH; [exact NF|]. rewrite <- DR, lenN_app, dread_lenN. lia.
Qed.

(** without failing system calls: success exactly when the file is long enough *)
Lemma c17_pread_total_ok : forall fuel o dsz off size st, no_failures o -> (0 < size)%N -> N.to_nat size < fuel ->
  ((off + size <= dsz)%N -> fst (pread_exact fuel o dsz off size st) = Done (dread (io_disk st) off (N.to_nat size))) /\
  ((dsz < off + size)%N -> fst (pread_exact fuel o dsz off size st) = Failed).
Proof.
  intros fuel o dsz off size st NF P L.
  destruct (pread_exact fuel o dsz off size st) as [r st'] eqn:E. cbn [fst].
  pose proof (pread_loop_total fuel o dsz off size [] st NF) as T. rewrite lenN_nil, N.sub_0_r in T. specialize (T L).
  unfold pread_exact in E. rewrite E in T. cbn in T.
  apply c17_pread_ok in E. destruct E as (_ & _ & D & F).
  split; intros B; destruct r; try congruence.
  - now destruct (D _ eq_refl) as [-> _].
  - destruct (F eq_refl) as [(k & _ & O)|]; [|lia]. specialize (NF k). rewrite O in NF. contradiction.
  - destruct (D _ eq_refl). lia.
Qed.

(** ** pwrite *)
Lemma firstn_N_snoc {A} (data : list A) pos m : 
  firstn (N.to_nat pos) data ++ firstn (N.to_nat m) (skipn (N.to_nat pos) data) = firstn (N.to_nat (pos + m)) data.
Proof. rewrite N2Nat.inj_add. now rewrite firstn_add. Qed.

Lemma pwrite_loop_spec fuel : forall o dsz off data pos st r st',
  pwrite_loop fuel o dsz off data pos st = (r, st') -> (pos <= lenN data)%N ->
  exists m tr, (pos <= m <= lenN data)%N /\ io_trace st' = io_trace st ++ tr /\
    consecutive (off + pos) tr (firstn (N.to_nat (m - pos)) (skipn (N.to_nat pos) data)) /\
    (forall p, io_disk st' p = play (io_disk st) tr p) /\ io_k st <= io_k st' /\
    (m = pos \/ off + m <= dsz)%N /\
    (r = Done tt -> m = lenN data) /\
    (r = Failed -> (m < lenN data)%N /\ ((exists k, io_k st <= k < io_k st' /\ o k = SFail) \/ (dsz < off + lenN data)%N)).
Proof.
  induction fuel as [|f IH]; intros o dsz off data pos st r st' H L; cbn in H.
  - destruct (N.ltb_spec pos (lenN data)).
    + injection H as <- <-. exists pos, []. rewrite app_nil_r, N.sub_diag. cbn. sp; auto; try lia; try discriminate. constructor.
    + injection H as <- <-. exists pos, []. rewrite app_nil_r, N.sub_diag. cbn. sp; auto; try lia; try discriminate. constructor.
  - destruct (N.ltb_spec pos (lenN data)) as [LT|GE].
    + unfold sys_pwrite in H. destruct (o (io_k st)) as [| |c] eqn:O.
      * apply IH in H; [|lia]. cbn [io_disk io_trace io_k] in H. destruct H as (m & tr & M & T & C & D & K & B & R & F).
        exists m, tr. sp; auto; try lia.
        intros X. destruct (F X) as [? Y]. split; [assumption|]. destruct Y as [(k & Hk & Ek)|]; [left; exists k; split; [lia|exact Ek]|now right].
      * injection H as <- <-. exists pos, []. cbn. rewrite app_nil_r, N.sub_diag. cbn. sp; auto; try lia; try discriminate.
        -- constructor.
        -- intros _. split; [lia|]. left. exists (io_k st). split; [lia|exact O].
      * destruct (N.leb_spec dsz (off + pos)) as [E|E].
        -- injection H as <- <-. exists pos, []. cbn. rewrite app_nil_r, N.sub_diag. cbn. sp; auto; try lia; try discriminate.
           constructor.
        -- set (n := N.min c (N.min (lenN (skipn (N.to_nat pos) data)) (dsz - (off + pos)))) in *.
           assert (Ln : lenN (skipn (N.to_nat pos) data) = (lenN data - pos)%N) by (rewrite lenN_skipn; lia).
           apply IH in H; [|lia]. cbn [io_disk io_trace io_k] in H. destruct H as (m & tr & M & T & C & D & K & B & R & F).
           set (part := firstn (N.to_nat n) (skipn (N.to_nat pos) data)) in *.
           assert (Lp : lenN part = n) by (unfold part; rewrite lenN_firstn; lia).
           exists m, (EW (off + pos) part :: tr). sp; auto; try lia.
           ++ rewrite T. now rewrite <- app_assoc.
           ++ replace (firstn (N.to_nat (m - pos)) (skipn (N.to_nat pos) data))
                with (part ++ firstn (N.to_nat (m - (pos + n))) (skipn (N.to_nat (pos + n)) data)).
              ** constructor. rewrite Lp. now replace (off + pos + n)%N with (off + (pos + n))%N by lia.
              ** unfold part. replace (N.to_nat (m - pos)) with (N.to_nat n + N.to_nat (m - (pos + n))) by lia.
                 rewrite firstn_add. f_equal. f_equal. rewrite skipn_skipn'. f_equal. lia.
           ++ intros X. destruct (F X) as [? Y]. split; [assumption|]. destruct Y as [(k & Hk & Ek)|]; [left; exists k; split; [lia|exact Ek]|now right].
    + injection H as <- <-. exists pos, []. rewrite app_nil_r, N.sub_diag. cbn. sp; auto; try lia; try discriminate. constructor.
Qed.

Lemma c17_pwrite_ok : forall fuel o dsz off data st r st',
  pwrite_exact fuel o dsz off data st = (r, st') ->
  exists m tr, (m <= lenN data)%N /\ io_trace st' = io_trace st ++ tr /\
    consecutive off tr (firstn (N.to_nat m) data) /\
    (forall p, io_disk st' p = dwrite (io_disk st) off (firstn (N.to_nat m) data) p) /\
    (m = 0 \/ off + m <= dsz)%N /\
    (r = Done tt -> m = lenN data) /\
    (r = Failed -> (m < lenN data)%N /\ ((exists k, io_k st <= k < io_k st' /\ o k = SFail) \/ (dsz < off + lenN data)%N)).
Proof.
  intros fuel o dsz off data st r st' H. unfold pwrite_exact in H. apply pwrite_loop_spec in H; [|lia].
  destruct H as (m & tr & M & T & C & D & K & B & R & F). exists m, tr.
  rewrite N.add_0_r, N.sub_0_r in C. cbn [N.to_nat skipn] in C. change (skipn (N.to_nat 0) data) with data in C.
  sp; auto; try lia.
  intros p. rewrite D. now apply consecutive_play.
Qed.

Lemma pwrite_loop_total fuel : forall o dsz off data pos st, no_failures o -> (N.to_nat (lenN data - pos) < fuel) ->
  fst (pwrite_loop fuel o dsz off data pos st) <> Running.
Proof.
  induction fuel as [|f IH]; intros o dsz off data pos st NF L; [lia|]. cbn.
  destruct (N.ltb_spec pos (lenN data)); [|discriminate].
  unfold sys_pwrite. specialize (NF (io_k st)) as N1. destruct (o (io_k st)) as [| |c]; try contradiction.
  destruct (N.leb_spec dsz (off + pos)); [discriminate|].
  apply IH; [exact NF|]. rewrite lenN_skipn. lia.
Qed.
Lemma c17_pwrite_total_ok : forall fuel o dsz off data st, no_failures o -> data <> [] -> N.to_nat (lenN data) < fuel ->
  ((off + lenN data <= dsz)%N -> fst (pwrite_exact fuel o dsz off data st) = Done tt) /\
  ((dsz < off + lenN data)%N -> fst (pwrite_exact fuel o dsz off data st) = Failed).
Proof.
  intros fuel o dsz off data st NF P L.
  destruct (pwrite_exact fuel o dsz off data st) as [r st'] eqn:E. cbn [fst].
  pose proof (pwrite_loop_total fuel o dsz off data 0 st NF) as T. rewrite N.sub_0_r in T. specialize (T L).
  unfold pwrite_exact in E. rewrite E in T. cbn in T.
  apply c17_pwrite_ok in E. destruct E as (m & tr & M & _ & _ & _ & B & D & F).
  assert (0 < lenN data)%N by (destruct data; [congruence|]; rewrite lenN_cons; lia).
  split; intros X; destruct r as [[]| |]; try congruence.
  - destruct (F eq_refl) as [_ [(k & _ & O)|]]; [|lia]. specialize (NF k). rewrite O in NF. contradiction.
  - specialize (D eq_refl). lia.
Qed.

(** ** lazy write *)
Lemma bytes_eqb_spec a b : bytes_eqb a b = true <-> a = b.
Proof. unfold bytes_eqb. destruct (list_eq_dec N.eq_dec a b); split; congruence. Qed.

Lemma c17_lazy_ok : forall fuel o dsz off data st r st',
  pwrite_lazy fuel o dsz off data st = (r, st') ->
  exists m tr, (m <= lenN data)%N /\ io_trace st' = io_trace st ++ tr /\
    consecutive off tr (firstn (N.to_nat m) data) /\
    (forall p, io_disk st' p = dwrite (io_disk st) off (firstn (N.to_nat m) data) p) /\
    (r = Done tt -> forall p, io_disk st' p = dwrite (io_disk st) off data p) /\
    (* nothing is written when the data is already there *)
    (dread (io_disk st) off (List.length data) = data -> tr = []).
Proof.
  intros fuel o dsz off data st r st' H. unfold pwrite_lazy in H.
  destruct (pread_exact fuel o dsz off (lenN data) st) as [rr st1] eqn:E. apply c17_pread_ok in E. destruct E as (D & T & R & F).
  assert (NT : exists m tr, (m <= lenN data)%N /\ io_trace st1 = io_trace st ++ tr /\
    consecutive off tr (firstn (N.to_nat m) data) /\ (forall p, io_disk st1 p = dwrite (io_disk st) off (firstn (N.to_nat m) data) p) /\ tr = []).
  { exists 0%N, []. rewrite app_nil_r. sp; auto; [lia|constructor|]. intros p. rewrite D. cbn. now rewrite dwrite_nil. }
  destruct rr as [old| |].
  - destruct (R _ eq_refl) as [OLD _]. unfold lenN in OLD. rewrite Nat2N.id in OLD.
    destruct (bytes_eqb data old) eqn:Q.
    + injection H as <- <-. apply bytes_eqb_spec in Q. subst old. destruct NT as (m & tr & A & B & C & X & Y). exists m, tr.
      sp; auto. intros _ p. rewrite D. symmetry. apply dwrite_same. now symmetry.
    + apply c17_pwrite_ok in H. destruct H as (m & tr & M & T2 & C & D2 & B & R2 & F2). exists m, tr.
      rewrite T in T2. rewrite D in D2. sp; auto.
      * intros E p. rewrite D2. rewrite (R2 E). unfold lenN. rewrite Nat2N.id, firstn_all. reflexivity.
      * intros E. exfalso. rewrite <- OLD in E. assert (X : bytes_eqb data old = true) by (apply bytes_eqb_spec; congruence). congruence.
  - injection H as <- <-. destruct NT as (m & tr & A & B & C & X & Y). exists m, tr. sp; auto. discriminate.
  - injection H as <- <-. destruct NT as (m & tr & A & B & C & X & Y). exists m, tr. sp; auto. discriminate.
Qed.

(** ** variants with file position *)
Lemma read_loop_pread fuel : forall o dsz size fd0 acc st,
  let '(r, fd, st') := read_loop fuel o dsz size (fd0 + lenN acc) acc st in
  pread_loop fuel o dsz fd0 size acc st = (r, st') /\ (forall l, r = Done l -> fd = (fd0 + lenN l)%N).
Proof.
  induction fuel as [|f IH]; intros o dsz size fd0 acc st; cbn.
  - destruct (lenN acc <? size)%N; split; try reflexivity; try discriminate. intros l E. now injection E as <-.
  - destruct (lenN acc <? size)%N; [|split; [reflexivity|intros l E; now injection E as <-]].
    destruct (sys_pread o dsz (fd0 + lenN acc) (size - lenN acc) st) as [[| |l] st'] eqn:S.
    + apply IH.
    + split; [reflexivity|discriminate].
    + destruct l as [|x l]; [split; [reflexivity|discriminate]|].
      replace (fd0 + lenN acc + lenN (x :: l))%N with (fd0 + lenN (acc ++ x :: l))%N by (rewrite lenN_app; lia). apply IH.
Qed.
Lemma c17_read_ok : forall fuel o dsz fdpos size st r fd' st',
  read_exact fuel o dsz fdpos size st = (r, fd', st') ->
  pread_exact fuel o dsz fdpos size st = (r, st') /\ (forall l, r = Done l -> fd' = (fdpos + size)%N).
Proof.
  intros fuel o dsz fdpos size st r fd' st' H. unfold read_exact in H.
  pose proof (read_loop_pread fuel o dsz size fdpos [] st) as P. rewrite lenN_nil, N.add_0_r, H in P. destruct P as [P Q].
  split; [exact P|]. intros l E. rewrite (Q l E). apply c17_pread_ok in P. destruct P as (_ & _ & D & _).
  destruct (D l E) as [-> _]. rewrite dread_lenN. lia.
Qed.

Lemma write_loop_pwrite fuel : forall o dsz fd0 data pos st, (pos <= lenN data)%N ->
  let '(r, fd, st') := write_loop fuel o dsz (fd0 + pos) data pos st in
  pwrite_loop fuel o dsz fd0 data pos st = (r, st') /\ (r = Done tt -> fd = (fd0 + lenN data)%N).
Proof.
  induction fuel as [|f IH]; intros o dsz fd0 data pos st L; cbn.
  - destruct (N.ltb_spec pos (lenN data)); split; try reflexivity; try discriminate. intros _. lia.
  - destruct (N.ltb_spec pos (lenN data)); [|split; [reflexivity|intros _; lia]].
    destruct (sys_pwrite o dsz (fd0 + pos) (skipn (N.to_nat pos) data) st) as [[| |n] st'] eqn:S.
    + apply IH. exact L.
    + split; [reflexivity|discriminate].
    + replace (fd0 + pos + n)%N with (fd0 + (pos + n))%N by lia. apply IH.
      unfold sys_pwrite in S. destruct (o (io_k st)); try discriminate.
      destruct (dsz <=? fd0 + pos)%N; [discriminate|]. injection S as <- _. rewrite lenN_skipn. lia.
Qed.
Lemma c17_write_ok : forall fuel o dsz fdpos data st r fd' st',
  write_exact fuel o dsz fdpos data st = (r, fd', st') ->
  pwrite_exact fuel o dsz fdpos data st = (r, st') /\ (r = Done tt -> fd' = (fdpos + lenN data)%N).
Proof.
  intros fuel o dsz fdpos data st r fd' st' H. unfold write_exact in H.
  pose proof (write_loop_pwrite fuel o dsz fdpos data 0 st ltac:(lia)) as P. rewrite N.add_0_r, H in P. exact P.
Qed.

(** ** stream copy *)
Lemma copy_loop_spec fuel : forall o dsz size inp fdpos sum st r fd' st',
  copy_loop fuel o dsz size inp fdpos sum st = (r, fd', st') -> (sum <= size)%N ->
  exists tr l rest, inp = l ++ rest /\ (sum + lenN l <= size)%N /\ io_trace st' = io_trace st ++ tr /\
    consecutive fdpos tr l /\ (forall p, io_disk st' p = play (io_disk st) tr p) /\
    (lenN l = 0 \/ fdpos + lenN l <= dsz)%N /\
    (forall rest', r = Done rest' -> rest = [] /\ rest' = [] /\ fd' = (fdpos + lenN l)%N).
Proof.
  induction fuel as [|f IH]; intros o dsz size inp fdpos sum st r fd' st' H L; cbn [copy_loop] in H.
  { injection H as <- <- <-. exists [], [], inp. rewrite app_nil_r. cbn. sp; auto; rewrite ?lenN_nil; try lia; try discriminate. constructor. }
  assert (BASE : forall k, exists tr l rest, inp = l ++ rest /\ (sum + lenN l <= size)%N /\
    io_trace (mkIo k (io_disk st) (io_trace st)) = io_trace st ++ tr /\
    consecutive fdpos tr l /\ (forall p, io_disk (mkIo k (io_disk st) (io_trace st)) p = play (io_disk st) tr p) /\
    (lenN l = 0 \/ fdpos + lenN l <= dsz)%N).
  { intros k. exists [], [], inp. cbn. rewrite app_nil_r. sp; auto; try lia. constructor. }
  unfold stream_read in H. destruct (o (io_k st)) as [| |c] eqn:O.
  - apply IH in H; [|exact L]. cbn [io_disk io_trace] in H. exact H.
  - injection H as <- <- <-. destruct (BASE (S (io_k st))) as (tr & l & rest & X). exists tr, l, rest.
    destruct X as (? & ? & ? & ? & ? & ?). sp; auto; discriminate.
  - set (m := N.to_nat (N.min (N.max 1 c) 8192)) in *. set (chunk := firstn m inp) in *.
    set (st1 := mkIo (S (io_k st)) (io_disk st) (io_trace st)) in *.
    destruct (N.ltb_spec size (sum + lenN chunk)) as [G|G].
    { injection H as <- <- <-. destruct (BASE (S (io_k st))) as (tr & l & rest & X). exists tr, l, rest.
      destruct X as (? & ? & ? & ? & ? & ?). sp; auto; discriminate. }
    destruct (write_all (S f) o dsz fdpos chunk st1) as [[wr fd1] st2] eqn:W.
    unfold write_all in W. apply c17_write_ok in W. destruct W as [W FD]. apply c17_pwrite_ok in W.
    destruct W as (n & tr1 & Mn & T1 & C1 & D1 & B1 & R1 & F1). cbn [st1 io_trace io_disk] in T1, D1.
    assert (SPLIT : inp = chunk ++ skipn m inp) by (unfold chunk; now rewrite firstn_skipn).
    assert (PART : inp = firstn (N.to_nat n) chunk ++ (skipn (N.to_nat n) chunk ++ skipn m inp)).
    { rewrite app_assoc, firstn_skipn. exact SPLIT. }
    assert (LP : lenN (firstn (N.to_nat n) chunk) = n) by (rewrite lenN_firstn; lia).
    assert (NOT : forall rr fdx stx, (rr, fdx, stx) = (r, fd', st') -> stx = st2 -> (forall x, rr <> Done x) ->
      exists tr l rest, inp = l ++ rest /\ (sum + lenN l <= size)%N /\ io_trace st' = io_trace st ++ tr /\
        consecutive fdpos tr l /\ (forall p, io_disk st' p = play (io_disk st) tr p) /\
        (lenN l = 0 \/ fdpos + lenN l <= dsz)%N /\
        (forall rest', r = Done rest' -> rest = [] /\ rest' = [] /\ fd' = (fdpos + lenN l)%N)).
    { intros rr fdx stx E Ex ND. injection E as <- <- <-. subst stx. exists tr1, (firstn (N.to_nat n) chunk), (skipn (N.to_nat n) chunk ++ skipn m inp).
      rewrite LP. sp; auto; try lia; [|intros rest1 E1; destruct (ND _ E1)].
      intros p. rewrite D1. symmetry. now apply consecutive_play. }
    destruct wr as [[]| |]; [|eapply NOT; [exact H|reflexivity|discriminate]|eapply NOT; [exact H|reflexivity|discriminate]].
    specialize (R1 eq_refl). specialize (FD eq_refl). subst n.
    assert (FA : firstn (N.to_nat (lenN chunk)) chunk = chunk) by (unfold lenN; now rewrite Nat2N.id, firstn_all).
    rewrite FA in *. clear NOT.
    destruct chunk as [|b chunk'] eqn:CH.
    + injection H as <- <- <-. exists tr1, [], inp. rewrite lenN_nil in *. sp; auto; try lia.
      * intros p. rewrite D1. symmetry. now apply consecutive_play.
      * intros rest' E. assert (inp = []) as ->.
        { destruct inp as [|x inp]; [reflexivity|]. exfalso. assert (m <> 0) by lia. destruct m; [lia|]. discriminate. }
        rewrite skipn_nil in E. injection E as <-. repeat split. lia.
    + apply IH in H; [|lia]. destruct H as (tr2 & l2 & rest & I2 & S2 & T2 & C2 & D2 & B2 & R2).
      exists (tr1 ++ tr2), ((b :: chunk') ++ l2), rest. sp.
      * rewrite SPLIT, I2. now rewrite app_assoc.
      * rewrite lenN_app. lia.
      * rewrite T2, T1. now rewrite app_assoc.
      * eapply consecutive_app; [exact C1|]. now rewrite <- FD.
      * intros p. rewrite D2, play_app. apply play_ext. rewrite D1. symmetry. now apply consecutive_play.
      * rewrite lenN_app. right. rewrite FD in B2. pose proof (lenN_cons b chunk'). lia.
      * intros rest' E. destruct (R2 _ E) as (-> & -> & ->). repeat split. rewrite lenN_app, FD. lia.
Qed.

Lemma c18_copy_ok : forall fuel o dsz size inp fdpos st r fd' st',
  copy_stream fuel o dsz size inp fdpos st = (r, fd', st') ->
  exists tr l rest, inp = l ++ rest /\ (lenN l <= size)%N /\ io_trace st' = io_trace st ++ tr /\
    consecutive fdpos tr l /\ (forall p, io_disk st' p = dwrite (io_disk st) fdpos l p) /\
    (lenN l = 0 \/ fdpos + lenN l <= dsz)%N /\
    (forall rest', r = Done rest' -> rest = rest' /\ fd' = (fdpos + lenN l)%N /\ (if (size =? 0)%N then l = [] else rest' = [])).
Proof.
  intros fuel o dsz size inp fdpos st r fd' st' H. unfold copy_stream in H. destruct (N.eqb_spec size 0) as [->|NZ].
  - injection H as <- <- <-. exists [], [], inp. rewrite app_nil_r, lenN_nil. sp; auto; try lia.
    + constructor.
    + intros p. now rewrite dwrite_nil.
    + intros rest' E. injection E as <-. repeat split. lia.
  - apply copy_loop_spec in H; [|lia]. destruct H as (tr & l & rest & I & S & T & C & D & B & R). exists tr, l, rest.
    sp; auto; try lia.
    + intros p. rewrite D. now apply consecutive_play.
    + intros rest' E. destruct (R _ E) as (-> & -> & ->). repeat split.
Qed.

(** without failures: success exactly when the input is not longer than announced *)
Lemma copy_loop_total fuel : forall o dsz size inp fdpos sum st, no_failures o ->
  (fdpos + lenN inp <= dsz)%N -> (sum + lenN inp <= size)%N -> 2 * List.length inp + 1 < fuel ->
  exists fd' st', copy_loop fuel o dsz size inp fdpos sum st = (Done [], fd', st').
Proof.
  induction fuel as [|f IH]; intros o dsz size inp fdpos sum st NF B L F; [lia|]. cbn [copy_loop].
  unfold stream_read. specialize (NF (io_k st)) as N1. destruct (o (io_k st)) as [| |c]; try contradiction.
  set (m := N.to_nat (N.min (N.max 1 c) 8192)). set (st1 := mkIo _ _ _).
  assert (SPLIT : inp = firstn m inp ++ skipn m inp) by now rewrite firstn_skipn.
  assert (LC : (lenN (firstn m inp) + lenN (skipn m inp) = lenN inp)%N) by (rewrite <- lenN_app; now rewrite <- SPLIT).
  destruct (N.ltb_spec size (sum + lenN (firstn m inp))); [lia|].
  destruct (write_all (S f) o dsz fdpos (firstn m inp) st1) as [[wr fd1] st2] eqn:W.
  assert (WD : wr = Done tt).
  { unfold write_all in W. apply c17_write_ok in W. destruct W as [W _].
    destruct (firstn m inp) as [|b ch] eqn:CH.
    - cbn in W. congruence.
    - rewrite <- CH in *. destruct (c17_pwrite_total_ok (S f) o dsz fdpos (firstn m inp) st1 NF) as [X _].
      + rewrite CH. discriminate.
      + unfold lenN. rewrite Nat2N.id, firstn_length. lia.
      + rewrite W in X. cbn in X. apply X. lia. }
  subst wr. unfold write_all in W. apply c17_write_ok in W. destruct W as [_ FD]. specialize (FD eq_refl).
  destruct (firstn m inp) as [|b ch] eqn:CH.
  - assert (inp = []) as ->.
    { destruct inp as [|x inp]; [reflexivity|]. assert (m <> 0) by lia. destruct m; [lia|discriminate]. }
    rewrite skipn_nil. eauto.
  - rewrite <- CH in *. apply IH; try assumption; try lia.
    rewrite skipn_length. apply (f_equal (@List.length _)) in CH. rewrite firstn_length in CH. cbn in CH. lia.
Qed.
Lemma c18_copy_total_ok : forall fuel o dsz size inp fdpos st, no_failures o -> 2 * List.length inp + 1 < fuel ->
  (fdpos + lenN inp <= dsz)%N -> (0 < size)%N -> (lenN inp <= size)%N ->
  exists fd' st', copy_stream fuel o dsz size inp fdpos st = (Done [], fd', st').
Proof.
  intros fuel o dsz size inp fdpos st NF F B P L. unfold copy_stream.
  destruct (N.eqb_spec size 0); [lia|]. apply copy_loop_total; try assumption; lia.
Qed.

(** a shorter input than announced is reported as success *)
Lemma c18_short_refuted : exists fuel o dsz size inp fdpos st st' fd',
  (lenN inp < size)%N /\ copy_stream fuel o dsz size inp fdpos st = (Done [], fd', st').
Proof.
  exists 10, (fun _ => SCount 4096), 100%N, 5%N, [1;2;3]%N, 0%N, (mkIo 0 (fun _ => 0%N) []). do 2 eexists.
  split; [reflexivity|]. reflexivity.
Qed.
