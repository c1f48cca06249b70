From Coq Require Import Permutation Sorted.
From Verif Require Import Base Disk DiskLemmas ExactIO ExactIOSpec ExactIOProofs BootRegion Emmc HashIndex HashIndexSpec.

(** ** comparison of digests *)
Lemma memcmp_eq a : forall b, memcmp a b = Eq <-> a = b.
Proof.
  induction a as [|x a IH]; intros [|y b]; cbn [memcmp]; try (split; congruence).
  destruct (N.compare_spec x y) as [->|L|L].
  - rewrite IH. split; congruence.
  - split; [discriminate|]. intros E. injection E as -> ->. lia.
  - split; [discriminate|]. intros E. injection E as -> ->. lia.
Qed.
Lemma memcmp_refl a : memcmp a a = Eq. Proof. now apply memcmp_eq. Qed.
Lemma memcmp_opp a : forall b, memcmp b a = CompOpp (memcmp a b).
Proof.
  induction a as [|x a IH]; intros [|y b]; cbn [memcmp]; auto.
  rewrite (N.compare_antisym x y). destruct (x ?= y)%N; cbn; auto.
Qed.
Lemma memcmp_trans a : forall b c, memcmp a b = Lt -> memcmp b c = Lt -> memcmp a c = Lt.
Proof.
  induction a as [|x a IH]; intros [|y b] [|z c]; cbn [memcmp]; try congruence.
  destruct (N.compare_spec x y) as [->|L|L]; destruct (N.compare_spec y z) as [->|L'|L']; intros A B; try discriminate.
  all: try (match goal with |- context [(?u ?= ?v)%N] => destruct (N.compare_spec u v) end); try lia; eauto.
Qed.
(** [a <= b] and [b <= c] *)
Lemma memcmp_le_trans a b c : memcmp a b <> Gt -> memcmp b c <> Gt -> memcmp a c <> Gt.
Proof.
  intros A B. destruct (memcmp a b) eqn:E1; [|destruct (memcmp b c) eqn:E2|congruence].
  - apply memcmp_eq in E1. now subst.
  - apply memcmp_eq in E2. subst. rewrite E1. discriminate.
  - rewrite (memcmp_trans _ _ _ E1 E2). discriminate.
  - congruence.
Qed.

(** ** the sorted table *)
Lemma lookup_le_total hs i j : lookup_le hs i j = false -> lookup_le hs j i = true.
Proof.
  unfold lookup_le. rewrite (memcmp_opp (nth i hs []) (nth j hs [])). destruct (memcmp (nth i hs []) (nth j hs [])); cbn; try congruence.
  intros H. apply Nat.leb_gt in H. apply Nat.leb_le. lia.
Qed.
Lemma lookup_le_trans hs i j k : lookup_le hs i j = true -> lookup_le hs j k = true -> lookup_le hs i k = true.
Proof.
  unfold lookup_le. intros A B.
  destruct (memcmp (nth i hs []) (nth j hs [])) eqn:E1; try discriminate; destruct (memcmp (nth j hs []) (nth k hs [])) eqn:E2; try discriminate.
  - apply memcmp_eq in E1, E2. rewrite E1, E2, memcmp_refl. apply Nat.leb_le in A, B. apply Nat.leb_le. lia.
  - apply memcmp_eq in E1. now rewrite E1, E2.
  - apply memcmp_eq in E2. now rewrite <- E2, E1.
  - now rewrite (memcmp_trans _ _ _ E1 E2).
Qed.
Lemma insert_perm hs x l : Permutation (insert_sorted hs x l) (x :: l).
Proof.
  induction l as [|y r IH]; cbn; auto. destruct (lookup_le hs x y); auto. rewrite IH. apply perm_swap.
Qed.
Lemma build_perm hs : Permutation (build_lookup hs) (seq 0 (List.length hs)).
Proof.
  unfold build_lookup. induction (seq 0 (List.length hs)) as [|x l IH]; cbn; auto. rewrite insert_perm. now constructor.
Qed.
Definition lrel hs i j : Prop := lookup_le hs i j = true.
Lemma insert_sorted_ok hs x l : StronglySorted (lrel hs) l -> StronglySorted (lrel hs) (insert_sorted hs x l).
Proof.
  induction 1 as [|y r S IH F]; cbn; [repeat constructor|].
  destruct (lookup_le hs x y) eqn:E.
  - constructor; [now constructor|]. constructor; [exact E|]. eapply Forall_impl; [|exact F]. intros z Z. eapply lookup_le_trans; eassumption.
  - constructor; [exact IH|]. apply lookup_le_total in E. rewrite Forall_forall in *. intros z Z.
    apply (Permutation_in _ (insert_perm hs x r)) in Z. destruct Z as [<-|Z]; [exact E|now apply F].
Qed.
Lemma build_sorted hs : StronglySorted (lrel hs) (build_lookup hs).
Proof. unfold build_lookup. induction (seq 0 (List.length hs)); cbn; [constructor|]. now apply insert_sorted_ok. Qed.
Lemma build_length hs : List.length (build_lookup hs) = List.length hs.
Proof. rewrite (Permutation_length (build_perm hs)). apply seq_length. Qed.
Lemma build_in hs p : In p (build_lookup hs) <-> p < List.length hs.
Proof. rewrite (Permutation_in' eq_refl (build_perm hs)). rewrite in_seq. lia. Qed.
Lemma build_nodup hs : NoDup (build_lookup hs).
Proof. eapply Permutation_NoDup; [symmetry; apply build_perm|]. apply seq_NoDup. Qed.
Lemma sorted_nth {A} (R : A -> A -> Prop) (l : list A) (d : A) : StronglySorted R l -> forall i j, i < j < List.length l -> R (nth i l d) (nth j l d).
Proof.
  induction 1 as [|x r S IH F]; intros i j Hij; cbn [List.length] in Hij; [lia|].
  destruct j; [lia|]. destruct i; cbn [nth].
  - rewrite Forall_forall in F. apply F, nth_In. lia.
  - apply IH. lia.
Qed.

(** ** the search *)
Definition mono (cmp : nat -> comparison) (n : nat) : Prop :=
  forall i j, i <= j < n -> (cmp j = Lt -> cmp i = Lt) /\ (cmp i = Gt -> cmp j = Gt).
Lemma bsearch_sound fuel : forall cmp l r m, bsearch fuel cmp l r = Some m -> l <= m <= r /\ cmp m = Eq.
Proof.
  induction fuel as [|f IH]; cbn [bsearch]; intros cmp l r m H; [discriminate|].
  destruct (Nat.leb_spec l r); [|discriminate].
  pose proof (Nat.div_le_upper_bound (r - l) 2 (r - l) ltac:(lia) ltac:(lia)) as D.
  set (mid := l + (r - l) / 2) in *. assert (MB : l <= mid <= r) by lia. clearbody mid. destruct (cmp mid) eqn:C.
  - injection H as <-. split; [lia|exact C].
  - apply IH in H. split; [lia|tauto].
  - destruct (Nat.ltb_spec 0 mid); [|discriminate]. apply IH in H. split; [lia|tauto].
Qed.
Lemma bsearch_complete fuel : forall cmp n l r e, mono cmp n -> r < n -> l <= e <= r -> cmp e = Eq -> r + 1 - l < fuel ->
  bsearch fuel cmp l r <> None.
Proof.
  induction fuel as [|f IH]; cbn [bsearch]; intros cmp n l r e M R E C L; [lia|].
  destruct (Nat.leb_spec l r); [|lia].
  pose proof (Nat.div_le_upper_bound (r - l) 2 (r - l) ltac:(lia) ltac:(lia)) as D.
  set (m := l + (r - l) / 2) in *. assert (MB : l <= m <= r) by lia. clearbody m. destruct (cmp m) eqn:CM.
  - discriminate.
  - eapply IH with (e := e); eauto; [|lia]. split; [|lia]. destruct (le_lt_dec e m) as [Q|Q]; [|lia].
    destruct (M e m ltac:(lia)) as [X _]. rewrite (X CM) in C. discriminate.
  - assert (e < m). { destruct (le_lt_dec m e) as [Q|Q]; [|lia]. destruct (M m e ltac:(lia)) as [_ X]. rewrite (X CM) in C. discriminate. }
    destruct (Nat.ltb_spec 0 m); [|lia]. eapply IH with (e := e); eauto; lia.
Qed.
Lemma first_back_spec cmp : forall i m, i <= m -> (forall j, i <= j <= m -> cmp j = Eq) ->
  let r := first_back cmp i m in
  r <= m /\ (forall j, r <= j <= m -> cmp j = Eq) /\ (r = m /\ (forall j, j <= m -> cmp j = Eq) \/ 0 < r /\ cmp (r - 1) <> Eq).
Proof.
  induction i as [|j IH]; intros m L A; cbn [first_back].
  - split; [lia|]. split; [intros j Hj; apply A; lia|]. left. split; [reflexivity|]. intros j Hj. apply A. lia.
  - destruct (cmp j) eqn:C.
    + apply IH; [lia|]. intros k Hk. destruct (Nat.eq_dec k j) as [->|]; [exact C|]. apply A. lia.
    + split; [exact L|]. split; [exact A|]. right. split; [lia|]. replace (S j - 1) with j by lia. congruence.
    + split; [exact L|]. split; [exact A|]. right. split; [lia|]. replace (S j - 1) with j by lia. congruence.
Qed.
Lemma scan_sound n : forall idx h i p, scan_valid n idx h i = Some p ->
  exists j, i <= j < i + n /\ p = nth j (hi_lookup idx) 0 /\ idx_cmp idx h j = Eq /\ in_range idx p.
Proof.
  induction n as [|m IH]; cbn [scan_valid]; intros idx h i p H; [discriminate|].
  destruct (idx_cmp idx h i) eqn:C; try discriminate.
  destruct (match hi_from idx with Some f => Nat.leb f (nth i (hi_lookup idx) 0) | None => false end) eqn:F; [discriminate|].
  destruct (Nat.ltb_spec (nth i (hi_lookup idx) 0) (hi_below idx)).
  - apply IH in H as (j & J & R). exists j. split; [lia|exact R].
  - injection H as <-. exists i. split; [lia|]. split; [reflexivity|]. split; [exact C|]. split; [lia|].
    destruct (hi_from idx); [|exact Logic.I]. now apply Nat.leb_gt in F.
Qed.

Section Built.
Variables (idx : hidx) (h : digest).
Hypothesis B : built idx.
Lemma cmp_mono : mono (idx_cmp idx h) (List.length (hi_hashes idx)).
Proof.
  intros i j [L U]. destruct B as [BL _]. unfold idx_cmp. destruct (Nat.eq_dec i j) as [->|NE]; [tauto|].
  pose proof (sorted_nth _ _ 0 (build_sorted (hi_hashes idx)) i j) as S. rewrite build_length in S. specialize (S ltac:(lia)).
  rewrite BL. set (a := nth (nth i (build_lookup (hi_hashes idx)) 0) (hi_hashes idx) []) in *.
  set (b := nth (nth j (build_lookup (hi_hashes idx)) 0) (hi_hashes idx) []) in *.
  assert (AB : memcmp a b <> Gt). { unfold lrel, lookup_le in S. fold a b in S. destruct (memcmp a b); congruence. }
  split; intros C.
  - destruct (memcmp a h) eqn:E; auto.
    + apply memcmp_eq in E. subst h. rewrite (memcmp_opp a b) in C. destruct (memcmp a b); cbn in C; congruence.
    + exfalso. apply (memcmp_le_trans a b h); auto. congruence.
  - destruct (memcmp b h) eqn:E; auto; exfalso; apply (memcmp_le_trans a b h AB); congruence.
Qed.
(** among equal hashes the chunk numbers increase *)
Lemma lookup_increasing i j : i < j < List.length (hi_hashes idx) -> idx_cmp idx h i = Eq -> idx_cmp idx h j = Eq ->
  nth i (hi_lookup idx) 0 < nth j (hi_lookup idx) 0.
Proof.
  intros L A C. destruct B as [BL _]. unfold idx_cmp in *.
  pose proof (sorted_nth _ _ 0 (build_sorted (hi_hashes idx)) i j) as S. rewrite build_length in S. specialize (S L).
  rewrite BL in *. apply memcmp_eq in A, C. unfold lrel, lookup_le in S. rewrite A, C, memcmp_refl in S. apply Nat.leb_le in S.
  assert (NE : nth i (build_lookup (hi_hashes idx)) 0 <> nth j (build_lookup (hi_hashes idx)) 0).
  { intros E. pose proof (proj1 (NoDup_nth _ 0) (build_nodup (hi_hashes idx)) i j) as Q. rewrite build_length in Q. specialize (Q ltac:(lia) ltac:(lia) E). lia. }
  lia.
Qed.
Lemma lookup_position p : p < List.length (hi_hashes idx) -> nth p (hi_hashes idx) [] = h ->
  exists e, e < List.length (hi_hashes idx) /\ nth e (hi_lookup idx) 0 = p /\ idx_cmp idx h e = Eq.
Proof.
  intros P E. destruct B as [BL _]. apply (build_in (hi_hashes idx)) in P. apply (In_nth _ _ 0) in P as (e & L & Q). rewrite build_length in L.
  exists e. rewrite BL. split; [exact L|]. split; [exact Q|]. unfold idx_cmp. rewrite BL, Q. now apply memcmp_eq.
Qed.

Lemma find_sound p : find_chunk idx h = Some p ->
  in_range idx p /\ p < List.length (hi_hashes idx) /\ nth p (hi_hashes idx) [] = h.
Proof.
  unfold find_chunk. destruct (bsearch _ _ _ _) as [m|] eqn:BS; [|discriminate]. apply bsearch_sound in BS as [BM BE].
  intros H. apply scan_sound in H as (j & J & -> & C & R). split; [exact R|]. destruct B as [BL BC].
  assert (JL : j < List.length (hi_hashes idx)) by lia.
  split; [|now apply memcmp_eq in C]. rewrite BL. apply build_in. apply nth_In. now rewrite build_length.
Qed.

Lemma scan_complete n : forall i e, i <= e < i + n -> e < List.length (hi_hashes idx) ->
  (forall j, i <= j <= e -> idx_cmp idx h j = Eq) -> in_range idx (nth e (hi_lookup idx) 0) ->
  scan_valid n idx h i <> None.
Proof.
  induction n as [|m IH]; intros i e L U A R; [lia|]. cbn [scan_valid]. rewrite (A i) by lia.
  assert (LE : nth i (hi_lookup idx) 0 <= nth e (hi_lookup idx) 0).
  { destruct (Nat.eq_dec i e) as [->|]; [lia|]. apply Nat.lt_le_incl, lookup_increasing; [lia|apply A; lia|apply A; lia]. }
  destruct R as [R1 R2].
  assert (F : match hi_from idx with Some f => Nat.leb f (nth i (hi_lookup idx) 0) | None => false end = false).
  { destruct (hi_from idx); [|reflexivity]. apply Nat.leb_gt. lia. }
  rewrite F. destruct (Nat.ltb_spec (nth i (hi_lookup idx) 0) (hi_below idx)) as [Q|Q]; [|discriminate].
  assert (i <> e) by (intros ->; lia). apply (IH (i + 1) e); [lia|exact U|intros j Hj; apply A; lia|now split].
Qed.

Lemma find_complete p : hi_count idx = List.length (hi_hashes idx) -> in_range idx p -> p < hi_count idx -> nth p (hi_hashes idx) [] = h ->
  hi_from idx = None \/ (exists q, q < hi_count idx /\ memcmp (nth q (hi_hashes idx) []) h = Lt) ->
  find_chunk idx h <> None.
Proof.
  intros CN R P E Q. rewrite CN in *. destruct (lookup_position p P E) as (e & EL & EP & EC).
  unfold find_chunk. rewrite CN. pose proof cmp_mono as MO.
  pose proof (bsearch_complete (S (List.length (hi_hashes idx))) (idx_cmp idx h) _ 0 (List.length (hi_hashes idx) - 1) e MO ltac:(lia) ltac:(lia) EC ltac:(lia)) as BC.
  destruct (bsearch _ _ _ _) as [m|] eqn:BS; [|congruence]. clear BC. apply bsearch_sound in BS as [BM BE].
  pose proof (first_back_spec (idx_cmp idx h) m m (le_n m) ltac:(intros j Hj; replace j with m by lia; exact BE)) as FB. cbv zeta in FB.
  set (r := first_back (idx_cmp idx h) m m) in *. destruct FB as (F1 & F2 & F3).
  assert (CR : idx_cmp idx h r = Eq) by (apply F2; lia).
  (* position of [e] relative to [r] *)
  destruct (le_lt_dec r e) as [RE|ER].
  - apply (scan_complete _ r e); [lia|exact EL| |now rewrite EP].
    intros j Hj. destruct (idx_cmp idx h j) eqn:CJ; [reflexivity| |].
    + destruct (MO r j ltac:(lia)) as [X _]. rewrite (X CJ) in CR. discriminate.
    + destruct (MO j e ltac:(lia)) as [_ X]. rewrite (X CJ) in EC. discriminate.
  - (* e is before r: only possible if everything up to the hit is equal *)
    destruct F3 as [[F3 FA]|[F0 F3]].
    + destruct Q as [Q|(q & QL & QC)].
      * apply (scan_complete _ r r); [lia|lia|intros j Hj; apply F2; lia|].
        destruct R as [R1 _]. split; [|now rewrite Q].
        pose proof (lookup_increasing e r ltac:(lia) EC CR). rewrite EP in *. lia.
      * exfalso.
        assert (exists x, x < List.length (hi_hashes idx) /\ nth x (hi_lookup idx) 0 = q) as (x & XL & XP).
        { destruct B as [BL _]. apply (build_in (hi_hashes idx)) in QL. apply (In_nth _ _ 0) in QL as (x & L & X). rewrite build_length in L. exists x. now rewrite BL. }
        assert (XC : idx_cmp idx h x = Lt) by (unfold idx_cmp; now rewrite XP).
        destruct (le_lt_dec x m) as [XM|XM]; [rewrite (FA x XM) in XC; discriminate|].
        destruct (MO m x ltac:(lia)) as [X _]. rewrite (X XC) in BE. discriminate.
    + exfalso. destruct (idx_cmp idx h (r - 1)) eqn:CP; [congruence| |].
      * destruct (MO e (r - 1) ltac:(lia)) as [X _]. rewrite (X CP) in EC. discriminate.
      * destruct (MO (r - 1) r ltac:(lia)) as [_ X]. rewrite (X CP) in CR. discriminate.
Qed.
End Built.
