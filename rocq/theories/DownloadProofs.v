From Verif Require Import Base BaseLemmas Hex Download DownloadSpec.
Local Open Scope list_scope.

Lemma flush_file : forall s d s' ok, flush s d = (s', ok) ->
  st_room s' = st_room s /\ st_bufsize s' = st_bufsize s /\ st_buf s' = [] /\
  (exists k, st_file s' = firstn k (st_file s ++ d)) /\
  (ok = true -> st_file s' = st_file s ++ d) /\
  ((N.of_nat (List.length (st_file s ++ d)) <= st_room s)%N -> ok = true).
Proof.
  intros s d s' ok H. unfold flush in H.
  destruct (_ <=? _)%N eqn:E.
  - assert (s' = mkStream (st_file s ++ d) [] (st_room s) (st_bufsize s)) as -> by congruence.
    assert (ok = true) as -> by congruence. cbn. repeat split; auto.
    exists (List.length (st_file s ++ d)). now rewrite firstn_all.
  - assert (s' = mkStream (firstn (N.to_nat (st_room s)) (st_file s ++ d)) [] (st_room s) (st_bufsize s)) as -> by congruence.
    assert (ok = false) as -> by congruence. cbn. repeat split; auto.
    + exists (N.to_nat (st_room s)). reflexivity.
    + discriminate.
    + intros H'. apply N.leb_gt in E. lia.
Qed.

Lemma fwrite_file : forall s d s' ok, fwrite s d = (s', ok) ->
  st_room s' = st_room s /\
  (exists k, st_file s' ++ st_buf s' = firstn k (st_file s ++ st_buf s ++ d)) /\
  (ok = true -> st_file s' ++ st_buf s' = st_file s ++ st_buf s ++ d).
Proof.
  intros s d s' ok H. unfold fwrite in H.
  destruct (_ <=? _)%N.
  - assert (s' = mkStream (st_file s) (st_buf s ++ d) (st_room s) (st_bufsize s)) as -> by congruence. cbn.
    repeat split; auto. exists (List.length (st_file s ++ st_buf s ++ d)). now rewrite firstn_all.
  - destruct (flush_file _ _ _ _ H) as (F1 & F2 & F3 & (k & F4) & F5 & F6). rewrite F3, app_nil_r.
    repeat split; auto. exists k. now rewrite F4.
Qed.

(** the data so far, and how much of it the limit allowed *)
Definition held (s : stream) : bytes := st_file s ++ st_buf s.

Definition pfx (a b : bytes) : Prop := exists k, a = firstn k b.
Lemma pfx_refl : forall a, pfx a a.
Proof. intros a. exists (List.length a). now rewrite firstn_all. Qed.
Lemma pfx_trans : forall a b c, pfx a b -> pfx b c -> pfx a c.
Proof. intros a b c (k & ->) (m & ->). exists (Nat.min k m). now rewrite firstn_firstn. Qed.
Lemma pfx_app : forall a b, pfx a (a ++ b).
Proof. intros a b. exists (List.length a). rewrite firstn_app, Nat.sub_diag, firstn_all. cbn. now rewrite app_nil_r. Qed.
Lemma pfx_len : forall a b, pfx a b -> (List.length a <= List.length b)%nat.
Proof. intros a b (k & ->). rewrite firstn_length. lia. Qed.
Lemma pfx_cut : forall a b, pfx (firstn a b) b.
Proof. intros a b. now exists a. Qed.

Lemma perform_ok : forall limit evs code pos s s' ok,
  (0 <= limit < 2 ^ 63)%Z -> (0 <= pos)%Z ->
  (pos + Z.of_nat (List.length (delivered evs)) < 2 ^ 63)%Z ->
  pos = Z.of_nat (List.length (held s)) ->
  (limit = 0 \/ pos <= limit)%Z ->
  perform limit evs code pos s = (s', ok) ->
  st_room s' = st_room s /\
  pfx (held s') (held s ++ delivered evs) /\
  (limit = 0 \/ Z.of_nat (List.length (held s')) <= limit)%Z /\
  (ok = true -> code = true /\ held s' = held s ++ delivered evs).
Proof.
  intros limit evs code. induction evs as [|e evs IH]; intros pos s s' ok Hl Hp Hb Hpos Hlim H.
  - cbn in H. assert (s' = s) as -> by congruence. assert (ok = code) as -> by congruence.
    cbn [delivered]. rewrite app_nil_r. split; [reflexivity|]. split; [apply pfx_refl|].
    split; [destruct Hlim; [left; auto|right; lia]|auto].
  - destruct e as [d|t n]; cbn [perform delivered] in *.
    + rewrite app_length, Nat2Z.inj_add in Hb.
      destruct (write_cb limit pos s d) as [[s1 pos1] b] eqn:E. unfold write_cb in E.
      rewrite (Z.mod_small limit) in E by lia. rewrite (Z.mod_small (pos + Z.of_nat (List.length d))) in E by lia.
      destruct (negb (limit =? 0)%Z && (limit <? pos + Z.of_nat (List.length d))%Z) eqn:C.
      * assert (s1 = s) as -> by congruence. assert (b = false) as -> by congruence.
        assert (s' = s) as -> by congruence. assert (ok = false) as -> by congruence.
        split; [reflexivity|]. split; [apply pfx_app|]. split; [destruct Hlim; [left; auto|right; lia]|discriminate].
      * assert (limit = 0 \/ pos + Z.of_nat (List.length d) <= limit)%Z as C'.
        { apply andb_false_iff in C. destruct C as [C|C].
          - apply negb_false_iff, Z.eqb_eq in C. auto.
          - apply Z.ltb_ge in C. auto. }
        destruct (fwrite s d) as [s2 ok2] eqn:W.
        destruct (fwrite_file _ _ _ _ W) as (W1 & (k & W2) & W3).
        rewrite app_assoc in W2, W3. fold (held s) in W2, W3. fold (held s2) in W2, W3.
        destruct ok2.
        -- assert (s1 = s2) as -> by congruence. assert (pos1 = (pos + Z.of_nat (List.length d))%Z) as -> by congruence.
           assert (b = true) as -> by congruence. specialize (W3 eq_refl).
           apply IH in H; auto; try lia.
           ++ destruct H as (H1 & H2 & H3 & H4). rewrite W3, <- app_assoc in H2, H4. rewrite H1, W1. auto.
           ++ rewrite W3, app_length. lia.
        -- assert (s1 = s2) as -> by congruence. assert (b = false) as -> by congruence.
           assert (s' = s2) as -> by congruence. assert (ok = false) as -> by congruence.
           split; [exact W1|]. split.
           { rewrite app_assoc. eapply pfx_trans; [exists k; exact W2|apply pfx_app]. }
           split; [|discriminate]. destruct C' as [C'|C']; [left; auto|right].
           pose proof (pfx_len (held s2) (held s ++ d) (ex_intro _ k W2)) as L.
           rewrite app_length in L. lia.
    + destruct (xfer_cb limit t n).
      * apply IH in H; auto.
      * assert (s' = s) as -> by congruence. assert (ok = false) as -> by congruence.
        split; [reflexivity|]. split; [apply pfx_app|]. split; [destruct Hlim; [left; auto|right; lia]|discriminate].
Qed.

Lemma fflush_held : forall s, pfx (st_file (fst (fflush s))) (held s) /\ held (fst (fflush s)) = st_file (fst (fflush s)) /\
  st_room (fst (fflush s)) = st_room s /\
  ((N.of_nat (List.length (held s)) <= st_room s)%N -> st_file (fst (fflush s)) = held s).
Proof.
  intros s. destruct (fflush s) as [s' ok] eqn:E. unfold fflush in E.
  destruct (flush_file _ _ _ _ E) as (F1 & F2 & F3 & F4 & F5 & F6). cbn [fst].
  split; [exact F4|]. split; [unfold held; now rewrite F3, app_nil_r|]. split; [exact F1|].
  intros H. apply F5, F6, H.
Qed.

(** C53 in full: with enough room *)
Lemma download_ok : forall limit body evs code room bufsize old can file,
  (0 <= limit < 2 ^ 63)%Z -> (Z.of_nat (List.length (delivered evs)) < 2 ^ 63)%Z ->
  honest_curl body evs code ->
  (N.of_nat (List.length body) <= room)%N ->
  download_file limit evs code can room bufsize old = (file, true) ->
  old = None /\ file = Some body /\ (limit <> 0 -> Z.of_nat (List.length body) <= limit)%Z.
Proof.
  intros limit body evs code room bufsize old can file Hl Hb Hc Hr H. unfold download_file in H.
  destruct old as [o|]; [discriminate|]. destruct can; cbn [negb] in H; [|discriminate].
  destruct (transfer limit evs code (mkStream [] [] room bufsize)) as [s1 ok] eqn:T.
  unfold transfer in T.
  destruct (perform limit evs code 0 (mkStream [] [] room bufsize)) as [s0 ok0] eqn:P.
  assert (file = Some (st_file (fst (fflush s1)))) as -> by congruence.
  assert (ok = true) as -> by congruence. clear H.
  apply perform_ok in P; [|cbn [held st_file st_buf app List.length] in *; lia..].
  destruct P as (P1 & P2 & P3 & P4).
  destruct ok0; cbn [negb] in T; [|congruence].
  destruct (P4 eq_refl) as (P5 & P6). cbn [held st_file st_buf app] in P6. specialize (Hc P5).
  rewrite Hc in P6. assert (s1 = fst (fflush s0)) as -> by congruence.
  destruct (fflush_held s0) as (_ & F2 & F3 & F4).
  destruct (fflush_held (fst (fflush s0))) as (_ & _ & _ & F6).
  split; [reflexivity|]. cbn [st_room] in P1. split.
  - f_equal. rewrite F6.
    + rewrite F2, F4; [exact P6|]. rewrite P6, P1. exact Hr.
    + rewrite F2, F3, F4 by (rewrite P6, P1; exact Hr). rewrite P6, P1. exact Hr.
  - intros Hn. rewrite P6 in P3. destruct P3; [congruence|auto].
Qed.

(** never more than the limit on disk, and only a prefix of what was delivered,
    whatever happens *)
Lemma limit_ok : forall limit evs code can room bufsize file ok,
  (0 < limit < 2 ^ 63)%Z -> (Z.of_nat (List.length (delivered evs)) < 2 ^ 63)%Z ->
  download_file limit evs code can room bufsize None = (Some file, ok) ->
  (Z.of_nat (List.length file) <= limit)%Z /\ exists k, file = firstn k (delivered evs).
Proof.
  intros limit evs code can room bufsize file ok Hl Hb H. unfold download_file in H.
  destruct can; cbn [negb] in H; [|discriminate].
  destruct (transfer limit evs code (mkStream [] [] room bufsize)) as [s1 ok1] eqn:T.
  unfold transfer in T.
  destruct (perform limit evs code 0 (mkStream [] [] room bufsize)) as [s0 ok0] eqn:P.
  assert (file = st_file (fst (fflush s1))) as -> by congruence. clear H.
  apply perform_ok in P; [|cbn [held st_file st_buf app List.length] in *; lia..].
  destruct P as (P1 & P2 & P3 & _). cbn [held st_file st_buf app] in P2.
  assert (pfx (st_file (fst (fflush s1))) (held s0)) as Q.
  { destruct ok0; cbn [negb] in T.
    - assert (s1 = fst (fflush s0)) as -> by congruence.
      destruct (fflush_held s0) as (F1 & F2 & _). destruct (fflush_held (fst (fflush s0))) as (F5 & _).
      rewrite F2 in F5. eapply pfx_trans; eassumption.
    - assert (s1 = s0) as -> by congruence. apply (fflush_held s0). }
  split.
  - pose proof (pfx_len _ _ Q). destruct P3; lia.
  - apply (pfx_trans _ _ _ Q P2).
Qed.

(** too large: no success *)
Lemma too_large_ok : forall limit evs code can room bufsize old file ok,
  (0 < limit < 2 ^ 63)%Z -> (Z.of_nat (List.length (delivered evs)) < 2 ^ 63)%Z ->
  (limit < Z.of_nat (List.length (delivered evs)))%Z \/ (exists t n, In (CProgress t n) evs /\ limit < t)%Z ->
  download_file limit evs code can room bufsize old = (file, ok) -> ok = false.
Proof.
  intros limit evs code can room bufsize old file ok Hl Hb Hbig H.
  destruct ok; [exfalso|reflexivity]. unfold download_file in H.
  destruct old as [o|]; [discriminate|]. destruct can; cbn [negb] in H; [|discriminate].
  destruct (transfer limit evs code (mkStream [] [] room bufsize)) as [s1 ok] eqn:T.
  unfold transfer in T.
  destruct (perform limit evs code 0 (mkStream [] [] room bufsize)) as [s0 ok0] eqn:P.
  assert (ok0 = true) as -> by (destruct ok0; [reflexivity|cbn in T; congruence]).
  destruct Hbig as [Hbig|(t & n & I1 & I2)].
  - apply perform_ok in P; [|cbn [held st_file st_buf app List.length] in *; lia..].
    destruct P as (_ & _ & P3 & P4). destruct (P4 eq_refl) as (_ & P6). cbn [held st_file st_buf app] in P6.
    rewrite P6 in P3. destruct P3; lia.
  - clear T H. revert P. generalize (mkStream [] [] room bufsize) as s. generalize 0%Z as pos.
    induction evs as [|e evs IH]; intros pos s P; [destruct I1|].
    destruct I1 as [->|I1].
    + cbn [perform] in P.
      assert (xfer_cb limit t n = false) as X.
      { unfold xfer_cb. apply negb_false_iff, andb_true_iff. split.
        - apply negb_true_iff, Z.eqb_neq. lia.
        - apply orb_true_iff. right. apply Z.ltb_lt. exact I2. }
      rewrite X in P. congruence.
    + assert (Z.of_nat (List.length (delivered evs)) < 2 ^ 63)%Z as Hb'.
      { destruct e; cbn [delivered] in Hb; [rewrite app_length in Hb; lia|exact Hb]. }
      destruct e as [d|t' n']; cbn [perform] in P.
      * destruct (write_cb limit pos s d) as [[s2 pos2] b]. destruct b; [|congruence].
        eapply IH; eassumption.
      * destruct (xfer_cb limit t' n'); [|congruence]. eapply IH; eassumption.
Qed.

Lemma existing_ok : forall limit evs code can room bufsize old,
  download_file limit evs code can room bufsize (Some old) = (Some old, false).
Proof. reflexivity. Qed.

(** errors of the last flush are ignored: success, but the end of the file is missing *)
Lemma short_file_refuted :
  exists limit body evs code room bufsize file,
    honest_curl body evs code /\
    download_file limit evs code true room bufsize None = (Some file, true) /\ file <> body.
Proof.
  exists 100%Z, ["a"; "b"]%char, [CData ["a"; "b"]%char], true, 1%N, 4096%N, ["a"%char].
  split; [intros _; reflexivity|]. split; [reflexivity|discriminate].
Qed.

(** a download that fits succeeds *)
Lemma flush_ok : forall s d, (N.of_nat (List.length (st_file s ++ d)) <= st_room s)%N -> snd (flush s d) = true.
Proof.
  intros s d H. unfold flush. apply N.leb_le in H. now rewrite H.
Qed.

Lemma fwrite_ok : forall s d, (N.of_nat (List.length (held s ++ d)) <= st_room s)%N -> snd (fwrite s d) = true.
Proof.
  intros s d H. unfold fwrite. destruct (_ <=? _)%N; [reflexivity|].
  apply flush_ok. rewrite app_assoc. exact H.
Qed.

Lemma perform_complete : forall limit evs pos s,
  (0 <= limit < 2 ^ 63)%Z -> (0 <= pos)%Z ->
  (pos + Z.of_nat (List.length (delivered evs)) < 2 ^ 63)%Z ->
  pos = Z.of_nat (List.length (held s)) ->
  (N.of_nat (List.length (held s ++ delivered evs)) <= st_room s)%N ->
  (limit = 0 \/ pos + Z.of_nat (List.length (delivered evs)) <= limit)%Z ->
  (forall t n, In (CProgress t n) evs -> limit = 0 \/ (t <= limit /\ n <= limit))%Z ->
  snd (perform limit evs true pos s) = true.
Proof.
  intros limit evs. induction evs as [|e evs IH]; intros pos s Hl Hp Hb Hpos Hr Hlim Hprog; [reflexivity|].
  destruct e as [d|t n]; cbn [perform delivered] in *.
  - rewrite app_length, Nat2Z.inj_add in Hb, Hlim.
    destruct (write_cb limit pos s d) as [[s1 pos1] b] eqn:E. unfold write_cb in E.
    rewrite (Z.mod_small limit) in E by lia. rewrite (Z.mod_small (pos + Z.of_nat (List.length d))) in E by lia.
    assert (negb (limit =? 0)%Z && (limit <? pos + Z.of_nat (List.length d))%Z = false) as C.
    { apply andb_false_iff. destruct Hlim as [Hlim|Hlim].
      - left. apply negb_false_iff, Z.eqb_eq. exact Hlim.
      - right. apply Z.ltb_ge. lia. }
    rewrite C in E.
    assert (snd (fwrite s d) = true) as W0.
    { apply fwrite_ok. rewrite !app_length in *. lia. }
    destruct (fwrite s d) as [s2 ok2] eqn:W. cbn [snd] in W0. subst ok2.
    destruct (fwrite_file _ _ _ _ W) as (W1 & _ & W3). specialize (W3 eq_refl).
    rewrite app_assoc in W3. fold (held s) in W3. fold (held s2) in W3.
    assert (s1 = s2) as -> by congruence. assert (pos1 = (pos + Z.of_nat (List.length d))%Z) as -> by congruence.
    assert (b = true) as -> by congruence.
    apply IH; auto; try lia.
    + rewrite W3, app_length. lia.
    + rewrite W3, W1, <- app_assoc. exact Hr.
    + intros t n I1. apply (Hprog t n). now right.
  - assert (xfer_cb limit t n = true) as X.
    { unfold xfer_cb. apply negb_true_iff, andb_false_iff.
      destruct (Hprog t n (or_introl eq_refl)) as [->|(A & B)]; [left; reflexivity|right].
      apply orb_false_iff. split; apply Z.ltb_ge; assumption. }
    rewrite X. apply IH; auto. intros t' n' I1. apply (Hprog t' n'). now right.
Qed.

Lemma completes_ok : forall limit body evs room bufsize,
  (0 <= limit < 2 ^ 63)%Z -> (Z.of_nat (List.length body) < 2 ^ 63)%Z ->
  delivered evs = body ->
  (N.of_nat (List.length body) <= room)%N ->
  (limit = 0 \/ Z.of_nat (List.length body) <= limit)%Z ->
  (forall t n, In (CProgress t n) evs -> t <= Z.of_nat (List.length body) /\ n <= Z.of_nat (List.length body))%Z ->
  download_file limit evs true true room bufsize None = (Some body, true).
Proof.
  intros limit body evs room bufsize Hl Hb Hd Hr Hlim Hprog. subst body.
  assert (snd (download_file limit evs true true room bufsize None) = true) as S1.
  { unfold download_file. cbn [negb].
    destruct (transfer limit evs true (mkStream [] [] room bufsize)) as [s1 ok] eqn:T. cbn [snd].
    unfold transfer in T.
    pose proof (perform_complete limit evs 0%Z (mkStream [] [] room bufsize)) as P.
    destruct (perform limit evs true 0 (mkStream [] [] room bufsize)) as [s0 ok0]. cbn [snd] in P.
    rewrite P in T; [cbn in T; congruence|..]; cbn [held st_file st_buf app List.length st_room] in *; try lia.
    - intros t n I1. destruct (Hprog t n I1). destruct Hlim; [left; auto|right; lia]. }
  destruct (download_file limit evs true true room bufsize None) as [f ok] eqn:E. cbn [snd] in S1. subst ok.
  destruct (download_ok limit (delivered evs) evs true room bufsize None true f) as (_ & -> & _); auto.
  intros _. reflexivity.
Qed.
