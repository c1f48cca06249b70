From Verif Require Import Base Disk DiskLemmas ExactIO ExactIOProofs BootRegion BootRegionSpec BootRegionProofs HashIndex HashIndexSpec HashIndexProofs AdaptiveProofs Verity VeritySpec.

(** ** level arithmetic *)
Lemma p128_pos l : (0 < 128 ^ l)%N. Proof. apply N.neq_0_lt_0, N.pow_nonzero. discriminate. Qed.
Lemma lcount_closed n l : (0 < n)%N -> lcount n l = ((n + 128 ^ N.of_nat l - 1) / 128 ^ N.of_nat l)%N.
Proof.
  intros P. induction l as [|l IH]; [cbn [lcount]; change (128 ^ N.of_nat 0)%N with 1%N; rewrite N.div_1_r; lia|].
  cbn [lcount]. rewrite IH. pose proof (p128_pos (N.of_nat l)) as Q. set (B := (128 ^ N.of_nat l)%N) in *.
  replace (128 ^ N.of_nat (S l))%N with (B * 128)%N by (unfold B; rewrite Nat2N.inj_succ, N.pow_succ_r'; lia).
  rewrite <- N.div_div by lia. f_equal. replace (n + B * 128 - 1)%N with (n + B - 1 + 127 * B)%N by lia. now rewrite N.div_add by lia.
Qed.
Lemma lcount_pos n l : (0 < n)%N -> (0 < lcount n l)%N.
Proof.
  intros P. induction l as [|l IH]; [exact P|]. cbn [lcount]. apply N.div_str_pos. lia.
Qed.
Lemma lcount_one n l : (0 < n)%N -> (lcount n l = 1%N <-> (n <= 128 ^ N.of_nat l)%N).
Proof.
  intros P. pose proof (lcount_pos n l P) as LP. rewrite lcount_closed in * by exact P. pose proof (p128_pos (N.of_nat l)) as Q. set (B := (128 ^ N.of_nat l)%N) in *. clearbody B.
  pose proof (N.div_mod (n + B - 1) B ltac:(lia)) as D. pose proof (N.mod_lt (n + B - 1) B ltac:(lia)) as M. set (q := ((n + B - 1) / B)%N) in *. clearbody q.
  set (m := ((n + B - 1) mod B)%N) in *. clearbody m. split; intros E; [subst q; lia|].
  assert (q < 2)%N; [|lia]. destruct (N.lt_ge_cases q 2) as [|G]; [assumption|]. assert (B * 2 <= B * q)%N by (apply N.mul_le_mono_l; exact G). lia.
Qed.
Lemma lcount_le n l : (0 < n)%N -> (lcount n (S l) <= lcount n l)%N.
Proof. intros P. pose proof (lcount_pos n l P). cbn [lcount]. apply N.div_le_upper_bound; lia. Qed.
(** the tree is at most as large as the data *)
Lemma above_bound n l k : (0 < n)%N -> (forall i, i < k -> lcount n (l + i) <> 1%N) -> (above n l k < lcount n l)%N.
Proof.
  intros P. revert l. induction k as [|k IH]; intros l NE; [cbn [above]; now apply lcount_pos|]. cbn [above].
  assert (A : (above n (S l) k < lcount n (S l))%N) by (apply IH; intros i Hi; replace (S l + i) with (l + S i) by lia; apply NE; lia).
  pose proof (lcount_pos n l P). pose proof (NE 0 ltac:(lia)) as N1. rewrite Nat.add_0_r in N1.
  assert (lcount n (S l) * 2 <= lcount n l)%N.
  { cbn [lcount]. set (c := lcount n l) in *. clearbody c. pose proof (N.div_mod (c + 127) 128 ltac:(lia)). pose proof (N.mod_lt (c + 127) 128 ltac:(lia)).
    set (q := ((c + 127) / 128)%N) in *. lia. }
  lia.
Qed.

Lemma shiftr_0 x k : (N.shiftr x (7 * k) =? 0)%N = (x <? 128 ^ k)%N.
Proof.
  rewrite N.shiftr_div_pow2. change 128%N with (2 ^ 7)%N. rewrite <- N.pow_mul_r.
  assert (Q : (2 ^ (7 * k) <> 0)%N) by (apply N.pow_nonzero; discriminate). set (B := (2 ^ (7 * k))%N) in *. clearbody B.
  destruct (N.ltb_spec x B) as [L|L]; [rewrite N.div_small by exact L; reflexivity|]. apply N.eqb_neq. intros E. apply N.div_small_iff in E; [lia|exact Q].
Qed.
Lemma count_levels_spec n : (0 < n)%N -> (n < 2 ^ 56)%N -> exists L, count_levels 64 n 0 = N.of_nat L /\ L <= 8 /\ depth n L.
Proof.
  intros P B. assert (G : forall fuel l, (forall i, i < l -> lcount n i <> 1%N) -> l <= 8 -> 8 < l + fuel -> exists L, count_levels fuel n (N.of_nat l) = N.of_nat L /\ L <= 8 /\ depth n L).
  { induction fuel as [|fuel IH]; intros l NE L8 F; [lia|]. cbn [count_levels]. unfold pb_bits.
    replace ((n + u64 - 1) mod u64)%N with (n - 1)%N.
    2:{ replace (n + u64 - 1)%N with (n - 1 + 1 * u64)%N by lia. rewrite N.mod_add by discriminate. rewrite N.mod_small; [reflexivity|]. unfold u64. change (2 ^ 56)%N with 72057594037927936%N in B. change (2 ^ 64)%N with 18446744073709551616%N. lia. }
    rewrite shiftr_0. destruct (N.ltb_spec (7 * N.of_nat l) 64) as [_|X]; [|exfalso; lia]. cbn [andb].
    destruct (N.ltb_spec (n - 1) (128 ^ N.of_nat l)) as [Y|Y]; cbn [negb].
    - exists l. split; [reflexivity|]. split; [exact L8|]. split; [|exact NE]. apply lcount_one; lia.
    - assert (NL : lcount n l <> 1%N) by (rewrite lcount_one by exact P; lia).
      assert (l <> 8) by (intros ->; change (128 ^ N.of_nat 8)%N with 72057594037927936%N in Y; change (2 ^ 56)%N with 72057594037927936%N in B; lia).
      replace (N.of_nat l + 1)%N with (N.of_nat (S l)) by lia. apply IH; [|lia|lia].
      intros i Hi. destruct (Nat.eq_dec i l) as [->|]; [exact NL|]. apply NE. lia. }
  apply (G 64 0); [intros i Hi; lia|lia|lia].
Qed.

Lemma above_snoc n : forall k l, above n l (S k) = (above n l k + lcount n (l + S k))%N.
Proof.
  induction k as [|k IH]; intros l; [cbn [above]; rewrite Nat.add_1_r; lia|].
  change (above n l (S (S k))) with (lcount n (S l) + above n (S l) (S k))%N. rewrite IH. cbn [above]. replace (S l + S k) with (l + S (S k)) by lia. lia.
Qed.
(** the table of the levels *)
Definition level_table (n : N) (L : nat) : list (N * N) := map (fun i => (lstart n L (S i), lcount n (S i))) (seq 0 L).
Lemma place_levels_spec n L : (0 < n)%N -> (n < 2 ^ 56)%N -> L <= 8 -> depth n L ->
  place_levels L n n = Some (level_table n L, vtotal n L).
Proof.
  intros P B L8 [_ NE].
  assert (G : forall i, i <= L -> place_levels i n (n + above n i (L - i)) = Some (map (fun j => (lstart n L (S j), lcount n (S j))) (seq 0 i), vtotal n L)).
  { induction i as [|i IH]; intros LE; [cbn [place_levels seq map]; unfold vtotal; rewrite Nat.sub_0_r; reflexivity|].
    cbn [place_levels]. unfold pb_bits. destruct (N.ltb_spec 63 (N.of_nat (S i) * 7)) as [X|_]; [exfalso; lia|].
    assert (S2 : (N.shiftl 1 (N.of_nat (S i) * 7) = 128 ^ N.of_nat (S i))%N).
    { rewrite N.shiftl_mul_pow2, N.mul_1_l. change 128%N with (2 ^ 7)%N. rewrite <- N.pow_mul_r. f_equal. lia. }
    assert (PL : (128 ^ N.of_nat (S i) <= 72057594037927936)%N).
    { change 72057594037927936%N with (128 ^ 8)%N. apply N.pow_le_mono_r; [discriminate|lia]. }
    change (2 ^ 56)%N with 72057594037927936%N in B.
    assert (SM : ((n + N.shiftl 1 (N.of_nat (S i) * 7) - 1) mod u64 = n + 128 ^ N.of_nat (S i) - 1)%N).
    { rewrite S2. apply N.mod_small. unfold u64. change (2 ^ 64)%N with 18446744073709551616%N. lia. }
    rewrite SM. rewrite N.shiftr_div_pow2. assert (S3 : (2 ^ (N.of_nat (S i) * 7) = 128 ^ N.of_nat (S i))%N) by (rewrite <- S2, N.shiftl_mul_pow2; lia).
    rewrite S3.
    rewrite <- lcount_closed by exact P.
    assert (AB : (n + above n (S i) (L - S i) + lcount n (S i) = n + above n i (L - i))%N).
    { replace (L - i) with (S (L - S i)) by lia. cbn [above]. lia. }
    assert (BD : (n + above n i (L - i) < 2 * 72057594037927936)%N).
    { assert (A : (above n i (L - i) < lcount n i)%N) by (apply above_bound; [exact P|]; intros j Hj; apply NE; lia).
      assert (C : (lcount n i <= n)%N) by (clear - P; induction i as [|i IH]; [cbn; lia|]; pose proof (lcount_le n i P); lia). lia. }
    rewrite AB. rewrite N.mod_small by (unfold u64; change (2 ^ 64)%N with 18446744073709551616%N; lia).
    destruct (N.ltb_spec (n + above n i (L - i)) (n + above n (S i) (L - S i))) as [X|_]; [exfalso; lia|].
    rewrite IH by lia. rewrite seq_S, map_app. reflexivity. }
  specialize (G L (le_n L)). rewrite Nat.sub_diag in G. cbn [above] in G. rewrite N.add_0_r in G. exact G.
Qed.
Lemma hash_levels_spec n : (n < 2 ^ 56)%N -> match hash_levels n with
  | None => n = 0%N
  | Some (lv, e) => (0 < n)%N /\ exists L, depth n L /\ lv = level_table n L /\ e = vtotal n L /\ (e < 2 * n)%N end.
Proof.
  intros B. destruct (N.eq_dec n 0) as [->|NZ]; [vm_compute; reflexivity|]. assert (P : (0 < n)%N) by lia.
  unfold hash_levels. destruct (count_levels_spec n P B) as (L & E & L8 & D). rewrite E, Nat2N.id.
  destruct (Nat.ltb_spec max_levels L) as [X|_]; [exfalso; unfold max_levels in X; lia|]. rewrite (place_levels_spec n L P B L8 D).
  split; [exact P|]. exists L. split; [exact D|]. split; [reflexivity|]. split; [reflexivity|]. unfold vtotal.
  pose proof (above_bound n 0 L P ltac:(intros i Hi; apply D; exact Hi)). cbn [lcount] in *. lia.
Qed.
Lemma mult_overflow_iff b s : (0 < s)%N -> mult_overflow b s = false <-> (b * s < u64)%N.
Proof.
  intros P. unfold mult_overflow. rewrite negb_false_iff, N.eqb_eq. assert (U : u64 <> 0%N) by discriminate. set (u := u64) in *. clearbody u.
  split; [|intros L; rewrite N.mod_small by exact L; now rewrite N.div_mul by lia].
  intros E. destruct (N.lt_ge_cases (b * s) u) as [|G]; [assumption|].
  pose proof (N.mod_lt (b * s) u U). pose proof (N.mul_div_le ((b * s) mod u) s ltac:(lia)) as M. rewrite E in M. lia.
Qed.
Lemma small_block b : mult_overflow b vbs = false -> ((b * vbs) mod u64 = b * 4096)%N.
Proof. intros H. apply mult_overflow_iff in H; [|reflexivity]. now rewrite N.mod_small. Qed.

(** ** layout *)
Lemma lstart_top n L : 0 < L -> lstart n L L = n.
Proof. intros P. destruct L; [lia|]. unfold lstart. rewrite Nat.sub_diag. cbn [above]. lia. Qed.
Lemma lstart_step n L l : 0 < l < L -> lstart n L l = (lstart n L (S l) + lcount n (S l))%N.
Proof.
  intros H. unfold lstart. destruct l as [|l]; [lia|]. replace (L - S l) with (S (L - S (S l))) by lia. cbn [above]. lia.
Qed.
Lemma lstart_first n L : 0 < L -> (lstart n L 1 + lcount n 1 = vtotal n L)%N.
Proof. intros H. unfold lstart, vtotal. destruct L as [|L]; [lia|]. replace (S L - 1) with L by lia. cbn [above]. lia. Qed.
Lemma lstart_ge n L l : 0 < l -> (n <= lstart n L l)%N. Proof. intros H. unfold lstart. destruct l; lia. Qed.
Lemma lstart_mono n L i j : 0 < i <= j -> j <= L -> (lstart n L j <= lstart n L i)%N.
Proof.
  intros [P LE] JL. induction LE as [|j LE IH]; [lia|]. rewrite (lstart_step n L j) in IH by lia. specialize (IH ltac:(lia)). lia.
Qed.
Lemma level_end n L l : 0 < l <= L -> (lstart n L l + lcount n l <= vtotal n L)%N.
Proof.
  intros [P LE]. destruct (Nat.eq_dec l 1) as [->|NE]; [rewrite lstart_first by lia; lia|].
  pose proof (lstart_step n L (l - 1) ltac:(lia)) as S. replace (Datatypes.S (l - 1)) with l in S by lia. rewrite <- S.
  pose proof (lstart_mono n L 1 (l - 1) ltac:(lia) ltac:(lia)). pose proof (lstart_first n L ltac:(lia)). lia.
Qed.
