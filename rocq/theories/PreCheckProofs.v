(** Proofs for C60. *)
From Verif Require Import Base PreCheck PreCheckSpec.

Lemma requested_cases (d : device) c :
  (List.length d <= 16 * c /\ requested d c = []) \/
  (16 * c < List.length d /\ exists r, requested d c = nth (16 * c) d false :: r).
Proof.
  unfold requested, chunk_blocks. generalize (16 * c)%nat. clear c. intros n. revert d.
  induction n as [|n IH]; intros [|b d].
  - left. auto.
  - right. split; [cbn; lia|]. exists (firstn 15 d). reflexivity.
  - left. cbn. split; [lia|reflexivity].
  - destruct (IH d) as [[A B]|[A (r & B)]].
    + left. split; [cbn; lia|exact B].
    + right. split; [cbn; lia|]. exists r. exact B.
Qed.

Lemma requested_blocks d c k : k < 16 -> 16 * c + k < List.length d ->
  In (nth (16 * c + k) d false) (requested d c).
Proof.
  unfold requested, chunk_blocks. generalize (16 * c)%nat. clear c. intros n K L.
  rewrite <- (firstn_skipn n d) at 1.
  assert (LN : List.length (firstn n d) = n) by (rewrite firstn_length; lia).
  rewrite app_nth2 by lia. rewrite LN. replace (n + k - n) with k by lia.
  assert (LS : k < List.length (skipn n d)) by (rewrite skipn_length; lia).
  rewrite <- (firstn_skipn 16 (skipn n d)) at 1.
  rewrite app_nth1 by (rewrite firstn_length; lia).
  apply nth_In. rewrite firstn_length. lia.
Qed.

Lemma requested_In d c b : In b (requested d c) -> exists i, 16 * c <= i /\ i < List.length d /\ nth i d false = b.
Proof.
  unfold requested, chunk_blocks. generalize (16 * c)%nat. clear c. intros n H.
  destruct (In_nth _ _ false H) as (k & K & E). rewrite firstn_length, skipn_length in K.
  exists (n + k). split; [lia|]. split; [lia|]. rewrite <- E.
  rewrite <- (firstn_skipn n d) at 1.
  assert (LN : List.length (firstn n d) = n) by (rewrite firstn_length; lia).
  rewrite app_nth2 by lia. rewrite LN. replace (n + k - n) with k by lia.
  rewrite <- (firstn_skipn 16 (skipn n d)) at 1.
  rewrite app_nth1 by (rewrite firstn_length, skipn_length; lia). reflexivity.
Qed.

Definition chunk_ok (kernel : device -> nat -> rd) d c := exists n, kernel d c = RBlocks n.

Lemma loop_exact kernel d :
  (forall c, kernel d c = REof <-> List.length d <= 16 * c) ->
  forall fuel c, List.length d < fuel + c -> 0 < fuel ->
  (read_loop kernel d fuel c = Some true /\ forall j, c <= j -> 16 * j < List.length d -> chunk_ok kernel d j) \/
  (read_loop kernel d fuel c = Some false /\ exists j, c <= j /\ 16 * j < List.length d /\ kernel d j = RErr).
Proof.
  intros EOF. induction fuel as [|f IH]; intros c F P; [lia|]. cbn [read_loop].
  destruct (kernel d c) as [| |n] eqn:E.
  - right. split; [reflexivity|]. exists c. split; [lia|]. split; [|exact E].
    destruct (Nat.lt_ge_cases (16 * c) (List.length d)) as [L|L]; [exact L|]. apply EOF in L. congruence.
  - left. split; [reflexivity|]. apply EOF in E. intros j J L. lia.
  - assert (L : 16 * c < List.length d).
    { destruct (Nat.lt_ge_cases (16 * c) (List.length d)) as [L|L]; [exact L|]. apply EOF in L. congruence. }
    assert (P' : 0 < f) by lia.
    destruct (IH (S c) ltac:(lia) P') as [[R A]|[R (j & J & B)]].
    + left. split; [exact R|]. intros j J LJ. destruct (Nat.eq_dec j c) as [->|N]; [exists n; exact E|].
      apply A; [lia|exact LJ].
    + right. split; [exact R|]. exists j. split; [lia|exact B].
Qed.

Lemma page_cache_eof d c : page_cache d c = REof <-> List.length d <= 16 * c.
Proof.
  unfold page_cache. destruct (requested_cases d c) as [[A ->]|[A (r & ->)]]; [tauto|].
  destruct (good_run _); split; intros H; try discriminate; lia.
Qed.
Lemma whole_request_eof d c : whole_request d c = REof <-> List.length d <= 16 * c.
Proof.
  unfold whole_request. destruct (requested_cases d c) as [[A ->]|[A (r & ->)]]; [tauto|].
  destruct (forallb _ _); split; intros H; try discriminate; lia.
Qed.

Lemma page_cache_ok d c : 16 * c < List.length d -> (chunk_ok page_cache d c <-> nth (16 * c) d false = true).
Proof.
  intros L. unfold chunk_ok, page_cache. destruct (requested_cases d c) as [[A ->]|[A (r & ->)]]; [lia|].
  destruct (nth (16 * c) d false); cbn [good_run]; split; intros H; try discriminate; eauto.
  destruct H as [n H]. discriminate.
Qed.
Lemma page_cache_err d c : 16 * c < List.length d -> page_cache d c = RErr -> nth (16 * c) d false = false.
Proof.
  intros L. unfold page_cache. destruct (requested_cases d c) as [[A ->]|[A (r & ->)]]; [lia|].
  destruct (nth (16 * c) d false); cbn [good_run]; [discriminate|reflexivity].
Qed.

Lemma check_page_cache : forall d : device,
  (read_complete page_cache d = Some true <->
   forall c, 16 * c < List.length d -> nth (16 * c) d false = true) /\
  (read_complete page_cache d = Some false <->
   exists c, 16 * c < List.length d /\ nth (16 * c) d false = false).
Proof.
  intros d. unfold read_complete.
  destruct (loop_exact page_cache d (page_cache_eof d) (S (List.length d)) 0 ltac:(lia) ltac:(lia)) as [[R A]|[R (j & J & B & C)]]; rewrite R.
  - assert (A' : forall c, 16 * c < List.length d -> nth (16 * c) d false = true)
      by (intros c L; apply page_cache_ok; [exact L|apply A; [lia|exact L]]).
    split; split; intros H; try discriminate; auto.
    destruct H as (c & L & E). rewrite (A' c L) in E. discriminate.
  - apply page_cache_err in C; [|exact B]. split; split; intros H; try discriminate; eauto.
    rewrite (H j B) in C. discriminate.
Qed.

Lemma split16 i : exists c k, k < 16 /\ i = 16 * c + k.
Proof.
  exists (i / 16), (i mod 16). split; [apply Nat.mod_upper_bound; lia|]. apply Nat.div_mod. lia.
Qed.

Lemma check_whole_request : forall d : device,
  (read_complete whole_request d = Some true <-> forall i, i < List.length d -> nth i d false = true) /\
  (read_complete whole_request d = Some false <-> exists i, i < List.length d /\ nth i d false = false).
Proof.
  intros d. unfold read_complete.
  destruct (loop_exact whole_request d (whole_request_eof d) (S (List.length d)) 0 ltac:(lia) ltac:(lia)) as [[R A]|[R (j & J & B & C)]]; rewrite R.
  - assert (A' : forall i, i < List.length d -> nth i d false = true).
    { intros i L. destruct (split16 i) as (c & k & K & ->).
      destruct (A c ltac:(lia) ltac:(lia)) as [n E]. unfold whole_request in E.
      pose proof (requested_blocks d c k K L) as I1.
      destruct (requested d c) as [|b r]; [destruct I1|].
      destruct (forallb (fun b => b) (b :: r)) eqn:F; [|discriminate].
      rewrite forallb_forall in F. exact (F _ I1). }
    split; split; intros H; try discriminate; auto.
    destruct H as (c & L & E). rewrite (A' c L) in E. discriminate.
  - assert (X : exists i, i < List.length d /\ nth i d false = false).
    { unfold whole_request in C. destruct (requested d j) as [|b r] eqn:Q; [discriminate|].
      destruct (forallb (fun b => b) (b :: r)) eqn:F; [discriminate|].
      assert (Y : exists x, In x (b :: r) /\ x = false).
      { clear - F. induction (b :: r) as [|x l IH]; [discriminate|]. cbn [forallb] in F. destruct x.
        - destruct (IH F) as (y & Y & E). exists y. split; [right; exact Y|exact E].
        - exists false. split; [left; reflexivity|reflexivity]. }
      destruct Y as (x & Y & ->). rewrite <- Q in Y. apply requested_In in Y. destruct Y as (i & _ & L & E). eauto. }
    split; split; intros H; try discriminate; auto.
    destruct X as (i & L & E). rewrite (H i L) in E. discriminate.
Qed.

(** ** For any kernel *)

Lemma page_cache_honest : honest page_cache.
Proof.
  intros d c. split; [apply page_cache_eof|]. split.
  - intros n E. unfold page_cache in E.
    assert (G : forall l m k, k < good_run l -> nth (m + k) (repeat false m ++ l) false = true /\ k < List.length l).
    { induction l as [|b l IH]; intros m k; cbn [good_run]; [lia|]. destruct b; [|lia].
      intros K. destruct k as [|k].
      - rewrite app_nth2; rewrite repeat_length; [|lia]. replace (m + 0 - m) with 0 by lia. split; [reflexivity|cbn; lia].
      - destruct (IH 0 k ltac:(lia)) as [A B]. rewrite app_nth2; rewrite repeat_length; [|lia].
        replace (m + S k - m) with (S k) by lia. split; [exact A|cbn; lia]. }
    remember (requested d c) as l eqn:Q. destruct l as [|b r]; [discriminate|].
    destruct (good_run (b :: r)) as [|m] eqn:GR; [discriminate|]. injection E as E. subst n.
    assert (LB : List.length (b :: r) <= 16) by (rewrite Q; unfold requested, chunk_blocks; rewrite firstn_length; lia).
    assert (GL : S m <= List.length (b :: r)).
    { destruct (G (b :: r) 0 m ltac:(lia)) as [_ X]. lia. }
    split; [lia|]. split; [lia|]. intros k K.
    destruct (G (b :: r) 0 k ltac:(lia)) as [A B]. cbn [repeat app Nat.add] in A.
    assert (LL : 16 * c + k < List.length d).
    { rewrite Q in B. unfold requested, chunk_blocks in B. rewrite firstn_length, skipn_length in B. lia. }
    split; [exact LL|]. rewrite Q in A. unfold requested, chunk_blocks in A, B. rewrite <- A.
    assert (LS : k < List.length (firstn 16 (skipn (16 * c) d))) by (rewrite Q in B; exact B).
    rewrite <- (firstn_skipn (16 * c) d) at 1.
    assert (LN : List.length (firstn (16 * c) d) = 16 * c) by (rewrite firstn_length; lia).
    rewrite app_nth2 by lia. rewrite LN. replace (16 * c + k - 16 * c) with k by lia.
    rewrite <- (firstn_skipn 16 (skipn (16 * c) d)) at 1. rewrite app_nth1 by exact LS. reflexivity.
  - intros E. exists 0. split; [lia|]. rewrite Nat.add_0_r.
    assert (L : 16 * c < List.length d).
    { destruct (Nat.lt_ge_cases (16 * c) (List.length d)) as [L|L]; [exact L|]. apply page_cache_eof in L. congruence. }
    split; [exact L|]. apply page_cache_err; assumption.
Qed.

Lemma whole_request_honest : honest whole_request.
Proof.
  intros d c. split; [apply whole_request_eof|]. split.
  - intros n E. unfold whole_request in E. remember (requested d c) as l eqn:Q.
    destruct l as [|b r]; [discriminate|]. destruct (forallb (fun b => b) (b :: r)) eqn:F; [|discriminate].
    injection E as E.
    assert (LB : n = Nat.min 16 (List.length d - 16 * c)).
    { replace n with (List.length (b :: r)) by (cbn [List.length]; congruence). rewrite Q. unfold requested, chunk_blocks. rewrite firstn_length, skipn_length. reflexivity. }
    assert (L1 : 0 < n) by (rewrite <- E; cbn; lia).
    split; [lia|]. split; [lia|]. intros k K. split; [lia|].
    rewrite forallb_forall in F. apply (F (nth (16 * c + k) d false)). rewrite Q. apply requested_blocks; lia.
  - intros E. unfold whole_request in E. remember (requested d c) as l eqn:Q.
    destruct l as [|b r]; [discriminate|]. destruct (forallb (fun b => b) (b :: r)) eqn:F; [discriminate|].
    destruct (List.forallb_forall (fun b : bool => b) (b :: r)) as [_ X].
    assert (Y : exists k, k < List.length (b :: r) /\ nth k (b :: r) false = false).
    { clear - F. induction (b :: r) as [|x l IH]; [discriminate|]. cbn [forallb] in F. destruct x.
      - destruct (IH F) as (k & K & E). exists (S k). split; [cbn; lia|exact E].
      - exists 0. split; [cbn; lia|reflexivity]. }
    destruct Y as (k & K & Y).
    assert (LB : List.length (b :: r) = Nat.min 16 (List.length d - 16 * c)).
    { rewrite Q. unfold requested, chunk_blocks. rewrite firstn_length, skipn_length. reflexivity. }
    exists k. split; [lia|]. split; [lia|]. rewrite Q in Y. unfold requested, chunk_blocks in Y. etransitivity; [|exact Y].
    rewrite <- (firstn_skipn (16 * c) d) at 1.
    assert (LN : List.length (firstn (16 * c) d) = 16 * c) by (rewrite firstn_length; lia).
    rewrite app_nth2 by lia. rewrite LN. replace (16 * c + k - 16 * c) with k by lia.
    rewrite <- (firstn_skipn 16 (skipn (16 * c) d)) at 1.
    rewrite app_nth1 by (rewrite firstn_length, skipn_length; lia). reflexivity.
Qed.

Lemma check_ends : forall kernel (d : device), honest kernel ->
  read_complete kernel d = Some true \/ read_complete kernel d = Some false.
Proof.
  intros kernel d H. unfold read_complete.
  destruct (loop_exact kernel d (fun c => proj1 (H d c)) (S (List.length d)) 0 ltac:(lia) ltac:(lia)) as [[R _]|[R _]]; auto.
Qed.

Lemma check_intact : forall kernel (d : device), honest kernel ->
  (forall i, i < List.length d -> nth i d false = true) -> read_complete kernel d = Some true.
Proof.
  intros kernel d H G. unfold read_complete.
  destruct (loop_exact kernel d (fun c => proj1 (H d c)) (S (List.length d)) 0 ltac:(lia) ltac:(lia)) as [[R _]|[R (j & _ & B & C)]]; [exact R|].
  destruct (proj2 (proj2 (H d j)) C) as (k & K & L & E). rewrite (G _ L) in E. discriminate.
Qed.

Lemma check_start_of_chunk : forall kernel (d : device), honest kernel ->
  read_complete kernel d = Some true -> forall c, 16 * c < List.length d -> nth (16 * c) d false = true.
Proof.
  intros kernel d H R c L. unfold read_complete in R.
  destruct (loop_exact kernel d (fun c => proj1 (H d c)) (S (List.length d)) 0 ltac:(lia) ltac:(lia)) as [[_ A]|[R' _]]; [|congruence].
  destruct (A c ltac:(lia) L) as [n E]. destruct (proj1 (proj2 (H d c)) n E) as (P & _ & Q).
  destruct (Q 0 P) as [_ X]. rewrite Nat.add_0_r in X. exact X.
Qed.

Lemma whole_request_checks : accepts_only_intact whole_request.
Proof. intros d R. apply check_whole_request. exact R. Qed.

Lemma page_cache_misses : ~ accepts_only_intact page_cache.
Proof. intros H. specialize (H [true; false] eq_refl 1 ltac:(cbn; lia)). discriminate. Qed.

(** every corruption that avoids the first block of each chunk is missed *)
Lemma missed_blocks : forall (d : device) i,
  (forall j, j < List.length d -> nth j d false = true) -> i < List.length d -> i mod 16 <> 0 ->
  read_complete page_cache (firstn i d ++ false :: skipn (S i) d) = Some true.
Proof.
  intros d i G L M. apply check_page_cache. intros c LC.
  assert (LF : List.length (firstn i d) = i) by (rewrite firstn_length; lia).
  rewrite app_length in LC. cbn [List.length] in LC. rewrite LF, skipn_length in LC.
  assert (LD : 16 * c < List.length d) by lia.
  assert (N : 16 * c <> i) by (intros <-; apply M; rewrite Nat.mul_comm; apply Nat.mod_mul; lia).
  destruct (Nat.lt_ge_cases (16 * c) i) as [A|A].
  - rewrite app_nth1 by lia. rewrite <- (G _ LD). rewrite <- (firstn_skipn i d) at 2. rewrite app_nth1 by lia. reflexivity.
  - rewrite app_nth2 by lia. rewrite LF. destruct (16 * c - i) as [|k] eqn:K; [lia|]. cbn [nth].
    rewrite <- (G _ LD). rewrite <- (firstn_skipn (S i) d) at 2.
    assert (LF2 : List.length (firstn (S i) d) = S i) by (rewrite firstn_length; lia).
    rewrite app_nth2 by lia. rewrite LF2. f_equal. lia.
Qed.
