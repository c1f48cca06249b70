From Verif Require Import Base Disk DiskLemmas ExactIO ExactIOProofs BootRegion BootRegionSpec BootRegionProofs HashIndex HashIndexSpec HashIndexProofs AdaptiveProofs Verity VeritySpec VerityLayout VerityProofs.
#[local] Opaque create_or_verify.

Section WithH.
Variable H : list byte -> digest.
Variable salt : list byte.
Hypothesis HL : forall x, List.length (H x) = 32.

Definition entry (n : N) (L i : nat) : N * N := (lstart n L (S i), lcount n (S i)).
(** level [l] of the tree is right *)
Definition level_ok (n : N) (L : nat) (d : disk) (l : nat) : Prop :=
  hashed H salt (up (lcount n l)) (N.to_nat (lcount n l)) (lstart n L (S l)) (lstart n L l) d d.
Lemma up_lcount n l : N.of_nat (up (lcount n l)) = lcount n (S l).
Proof. unfold up. rewrite N2Nat.id. reflexivity. Qed.
Lemma level_ok_iff n L d l : level_ok n L d l <-> (forall j, (j < lcount n (S l))%N -> is_parent H salt d (lstart n L (S l) + j) (lstart n L l + 128 * j) (children (lcount n l) j)).
Proof.
  unfold level_ok, hashed, is_parent. pose proof (up_lcount n l) as U.
  assert (K : forall j, kids (N.to_nat (lcount n l)) (N.to_nat j) = children (lcount n l) j) by (intros j; unfold kids, children; lia).
  split; intros A j J.
  - specialize (A (N.to_nat j) ltac:(lia)). rewrite K, N2Nat.id in A. exact A.
  - specialize (A (N.of_nat j) ltac:(lia)). rewrite <- K, Nat2N.id in A. exact A.
Qed.
Definition wend (n : N) (L i : nat) : N := match i with O => vtotal n L | S _ => lstart n L i end.
Lemma wend_step n L i : i < L -> wend n L i = (lstart n L (S i) + lcount n (S i))%N.
Proof. intros I. destruct i as [|i]; cbn [wend]; [symmetry; apply lstart_first; lia|apply lstart_step; lia]. Qed.
(** where the level below is *)
Lemma below_place n L i : i < L -> (lstart n L i + lcount n i <= lstart n L (S i))%N \/ (lstart n L (S i) + lcount n (S i) <= lstart n L i)%N.
Proof.
  intros I. destruct i as [|i]; [left; pose proof (lstart_ge n L 1 ltac:(lia)); cbn [lcount]; unfold lstart at 1; lia|right; rewrite <- lstart_step by lia; lia].
Qed.
Lemma hashed_both m b hq q d d' d2 d2' : hashed H salt m b hq q d d' ->
  (forall p, (q * 4096 <= p < (q + N.of_nat b) * 4096)%N -> d2 p = d p) -> (forall p, (hq * 4096 <= p < (hq + N.of_nat m) * 4096)%N -> d2' p = d' p) -> hashed H salt m b hq q d2 d2'.
Proof.
  intros A B C. eapply hashed_ext; [exact HL|exact B|]. intros j J. rewrite <- (A j J). unfold vblock. apply dread_ext. intros p P. rewrite VB in P. apply C. lia.
Qed.

Section Run.
Variable o : voracle.
Lemma levels_spec verify n L (P : (0 < n)%N) k : forall i first calc f r c' f', i + k = L -> 
  ((lstart n L i) * 4096 <= vf_size f)%N ->
  run_levels (map (entry n L) (seq i k)) first H salt o verify (lstart n L i, lcount n i) calc f = (r, c', f') ->
  (vf_size f <= vf_size f')%N /\ (verify = true -> vf_size f' = vf_size f /\ vf_disk f' = vf_disk f) /\
  same_outside (n * 4096) (wend n L i * 4096) (vf_disk f) (vf_disk f') /\
  (r = V0 -> (k <> 0 -> (wend n L i * 4096 <= vf_size f')%N) /\ forall l, i <= l < L -> level_ok n L (vf_disk f') l).
Proof.
  induction k as [|k IH]; intros i first calc f r c' f' IK SZ E; cbn [seq map run_levels] in E.
  - injection E as <- <- <-. sp; auto; [lia|intros p _; reflexivity|]. intros _. split; [lia|]. intros l ?; lia.
  - unfold entry at 1 in E. cbn [fst snd] in E.
    destruct (if first then (true, f) else vcall o f) as [ok f1] eqn:V.
    assert (X : vf_disk f1 = vf_disk f /\ vf_size f1 = vf_size f) by (destruct first; [injection V as <- <-; auto|now apply vcall_spec in V]). destruct X as [D1 Z1]. clear V.
    destruct ok; cbn [negb] in E; [|injection E as <- <- <-; sp; auto; [lia|intros p _; now rewrite D1|discriminate]].
    destruct (create_or_verify H salt o verify (lstart n L i) (Some (lstart n L (S i))) (lcount n i) calc f1) as [[r2 c2] f2] eqn:C.
    apply (cov_spec H salt o HL) in C; [|rewrite Z1; exact SZ]. unfold cov_post in C. rewrite D1, Z1 in C. destruct C as (A1 & A2 & A3 & A4).
    rewrite (up_lcount n i) in *. rewrite <- (wend_step n L i) in A3, A4 by lia.
    pose proof (lstart_ge n L (S i) ltac:(lia)) as GE. pose proof (wend_step n L i ltac:(lia)) as WE. pose proof (below_place n L i ltac:(lia)) as BP.
    assert (SO : same_outside (n * 4096) (wend n L i * 4096) (vf_disk f) (vf_disk f2)) by (intros p Hp; apply A3; lia).
    assert (N0 : r2 <> V0 -> (r2, c2, f2) = (r, c', f') -> (vf_size f <= vf_size f')%N /\ (verify = true -> vf_size f' = vf_size f /\ vf_disk f' = vf_disk f) /\
      same_outside (n * 4096) (wend n L i * 4096) (vf_disk f) (vf_disk f') /\
      (r = V0 -> (S k <> 0 -> (wend n L i * 4096 <= vf_size f')%N) /\ forall l, i <= l < L -> level_ok n L (vf_disk f') l)).
    { intros ND Q. injection Q as <- <- <-. sp; auto. contradiction. }
    destruct r2; try (apply N0; [discriminate|exact E]). clear N0. destruct (A4 eq_refl) as (B1 & B2 & B3). clear A4.
    pose proof (lcount_pos n i P) as CP. pose proof (lcount_pos n (S i) P) as CP2.
    assert (U0 : up (lcount n i) <> 0) by (pose proof (up_lcount n i); lia). specialize (B2 U0).
    apply IH in E; [|lia|lia].
    destruct E as (E1 & E2 & E3 & E4). cbn [wend] in E3, E4. sp.
    + lia.
    + intros V. destruct (A2 V) as [X Y]. destruct (E2 V) as [X' Y']. split; congruence.
    + intros p Hp. rewrite E3 by lia. apply SO. exact Hp.
    + intros V. destruct (E4 V) as [G1 G2]. sp; [lia|]. intros l [L1 L2].
      destruct (Nat.eq_dec l i) as [->|NE]; [|apply G2; lia].
      unfold level_ok. eapply hashed_both; [apply B3| |].
      * right. rewrite WE. destruct BP as [BP|BP]; [right|left]; lia.
      * intros p Hp. rewrite N2Nat.id in Hp. rewrite E3; [apply A3; rewrite WE; destruct BP as [BP|BP]; lia|].
        destruct i as [|i]; [unfold lstart in Hp; cbn [lcount] in Hp; lia|]. rewrite (lstart_step n L (S i)) in Hp by lia. lia.
      * intros p Hp. rewrite (up_lcount n i) in Hp. apply E3. lia.
Qed.
Lemma levels_complete n L (P : (0 < n)%N) : no_errors o -> (vtotal n L * 4096 < u64)%N -> forall k i first calc f, i + k = L ->
  (vtotal n L * 4096 <= vf_size f)%N -> (forall l, i <= l < L -> level_ok n L (vf_disk f) l) ->
  exists c' f', run_levels (map (entry n L) (seq i k)) first H salt o true (lstart n L i, lcount n i) calc f = (V0, c', f').
Proof.
  intros NE U. induction k as [|k IH]; intros i first calc f IK SZ OK; cbn [seq map run_levels]; [eauto|]. unfold entry at 1. cbn [fst snd].
  assert (X : exists f1, (if first then (true, f) else vcall o f) = (true, f1) /\ vf_disk f1 = vf_disk f /\ vf_size f1 = vf_size f).
  { destruct first; [eauto|]. unfold vcall. rewrite NE. eexists. split; [reflexivity|]. auto. }
  destruct X as (f1 & -> & D1 & Z1). cbn [negb].
  pose proof (level_end n L (S i) ltac:(lia)) as LE. pose proof (lcount_pos n (S i) P) as CP.
  assert (LI : (lstart n L i + lcount n i <= vtotal n L)%N).
  { destruct i as [|i]; [unfold lstart; cbn [lcount]; unfold vtotal; lia|apply level_end; lia]. }
  destruct (cov_complete H salt o HL (lstart n L i) (lstart n L (S i)) (lcount n i) calc f1 NE) as (c' & f2 & C).
  - lia.
  - lia.
  - rewrite Z1. lia.
  - rewrite Z1, (up_lcount n i). lia.
  - rewrite D1. apply OK. lia.
  - rewrite C. pose proof C as C'. apply (cov_spec H salt o HL) in C'; [|rewrite Z1; lia]. destruct C' as (_ & A2 & _). destruct (A2 eq_refl) as [A3 A4].
    apply IH; [lia|rewrite A3, Z1; exact SZ|]. intros l Hl. rewrite A4, D1. apply OK. lia.
Qed.

Lemma rev_table n L : rev (level_table n L) = match L with O => [] | S m => entry n L m :: rev (map (entry n L) (seq 0 m)) end.
Proof. unfold level_table. destruct L as [|m]; [reflexivity|]. fold (entry n (S m)). rewrite seq_S, map_app, rev_app_distr. reflexivity. Qed.

Lemma depth_unique n L L' : depth n L -> depth n L' -> L = L'.
Proof. intros [A B] [A' B']. destruct (Nat.lt_trichotomy L L') as [X|[X|X]]; [exfalso; eapply B'; eauto|exact X|exfalso; eapply B; eauto]. Qed.

Lemma run_spec verify n f r e root f' : verity_run H salt o verify n f = (r, e, root, f') ->
  (forall p, (p < n * 4096)%N -> vf_disk f' p = vf_disk f p) /\ (verify = true -> vf_disk f' = vf_disk f /\ vf_size f' = vf_size f) /\
  (r = V0 -> exists L, depth n L /\ e = vtotal n L /\ (0 < n)%N /\ (e * 4096 < u64)%N /\ verity_format H salt (vf_disk f') n L root /\ (e * 4096 <= vf_size f')%N /\
     same_outside (n * 4096) (e * 4096) (vf_disk f) (vf_disk f')).
Proof.
  intros E. unfold verity_run in E.
  assert (N0 : forall rr ee dd f1, rr <> V0 -> vf_disk f1 = vf_disk f -> vf_size f1 = vf_size f -> (rr, ee, dd, f1) = (r, e, root, f') ->
    (forall p, (p < n * 4096)%N -> vf_disk f' p = vf_disk f p) /\ (verify = true -> vf_disk f' = vf_disk f /\ vf_size f' = vf_size f) /\
    (r = V0 -> exists L, depth n L /\ e = vtotal n L /\ (0 < n)%N /\ (e * 4096 < u64)%N /\ verity_format H salt (vf_disk f') n L root /\ (e * 4096 <= vf_size f')%N /\
     same_outside (n * 4096) (e * 4096) (vf_disk f) (vf_disk f'))).
  { intros rr ee dd f1 ND D Z Q. injection Q as <- <- <- <-. sp; auto; [intros p _; now rewrite D|contradiction]. }
  destruct (mult_overflow n vbs) eqn:M; [eapply N0; [| | |exact E]; [discriminate|reflexivity|reflexivity]|].
  apply mult_overflow_iff in M; [|reflexivity]. assert (NB : (n < 2 ^ 56)%N).
  { change (2 ^ 56)%N with 72057594037927936%N. unfold u64 in M. change (2 ^ 64)%N with 18446744073709551616%N in M. unfold vbs in M. lia. }
  pose proof (hash_levels_spec n NB) as HS. destruct (hash_levels n) as [[lv e0]|]; [|eapply N0; [| | |exact E]; [discriminate|reflexivity|reflexivity]].
  destruct HS as (P & L & DP & -> & -> & TB).
  destruct (mult_overflow (vtotal n L) vbs) eqn:M2; [eapply N0; [| | |exact E]; [discriminate|reflexivity|reflexivity]|]. apply mult_overflow_iff in M2; [|reflexivity]. change vbs with 4096%N in M2.
  destruct (vcall o f) as [ok f1] eqn:V1. apply vcall_spec in V1 as [D1 Z1]. destruct ok; cbn [negb] in E; [|eapply N0; [| | |exact E]; [discriminate|congruence|congruence]].
  destruct (vcall o f1) as [ok f2] eqn:V2. apply vcall_spec in V2 as [D2 Z2]. destruct ok; cbn [negb] in E; [|eapply N0; [| | |exact E]; [discriminate|congruence|congruence]]. clear N0.
  destruct (run_levels (level_table n L) true H salt o verify (0%N, n) (repeat 0%N dsize) f2) as [[r3 c3] f3] eqn:RL.
  change (0%N, n) with (lstart n L 0, lcount n 0) in RL. unfold level_table in RL. fold (entry n L) in RL.
  apply levels_spec in RL; [|exact P|reflexivity|unfold lstart; lia]. cbn [wend] in RL.
  assert (DF : vf_disk f2 = vf_disk f) by congruence. assert (ZF : vf_size f2 = vf_size f) by congruence. rewrite DF, ZF in RL.
  destruct RL as (A1 & A2 & A3 & A4).
  assert (N3 : r3 <> V0 -> (r3, vtotal n L, c3, f3) = (r, e, root, f') -> (forall p, (p < n * 4096)%N -> vf_disk f' p = vf_disk f p) /\ (verify = true -> vf_disk f' = vf_disk f /\ vf_size f' = vf_size f) /\
    (r = V0 -> exists L, depth n L /\ e = vtotal n L /\ (0 < n)%N /\ (e * 4096 < u64)%N /\ verity_format H salt (vf_disk f') n L root /\ (e * 4096 <= vf_size f')%N /\
     same_outside (n * 4096) (e * 4096) (vf_disk f) (vf_disk f'))).
  { intros ND Q. injection Q as <- <- <- <-. sp; [intros p Hp; apply A3; lia|intros V; destruct (A2 V); auto|contradiction]. }
  destruct r3; try (apply N3; [discriminate|exact E]). clear N3. destruct (A4 eq_refl) as [B1 B2]. clear A4. rewrite rev_table in E.
  assert (R4 : exists r4 c4 f4, create_or_verify H salt o verify (lstart n L L) None 1 c3 f3 = (r4, c4, f4) /\ (r4, vtotal n L, c4, f4) = (r, e, root, f')).
  { destruct L as [|m].
    - destruct DP as [DP _]. cbn [lcount] in DP. subst n. destruct (create_or_verify H salt o verify 0 None 1 c3 f3) as [[r4 c4] f4] eqn:C. exists r4, c4, f4. auto.
    - unfold entry in E at 1. destruct (create_or_verify H salt o verify (lstart n (S m) (S m)) None 1 c3 f3) as [[r4 c4] f4] eqn:C. exists r4, c4, f4. auto. }
  destruct R4 as (r4 & c4 & f4 & C & Q). injection Q as <- <- <- <-. apply (cov_root H salt o HL) in C. destruct C as (D4 & Z4 & C). sp.
  - intros p Hp. rewrite D4. apply A3. lia.
  - intros V. destruct (A2 V). split; congruence.
  - intros V. destruct (C V) as [RT SZ]. exists L. rewrite D4, Z4. sp; auto.
    + split; [exact DP|]. split; [intros l j Hl; apply level_ok_iff, B2; lia|exact RT].
    + destruct L as [|m]; [|apply B1; lia]. unfold lstart in SZ. unfold vtotal. cbn [above]. destruct DP as [DP _]. cbn [lcount] in DP. lia.
Qed.

Lemma run_complete n L f root : no_errors o -> (vtotal n L * 4096 < u64)%N -> (0 < n)%N -> verity_format H salt (vf_disk f) n L root -> (vtotal n L * 4096 <= vf_size f)%N ->
  exists e f', verity_run H salt o true n f = (V0, e, root, f').
Proof.
  intros NE U P (DP & LO & RT) SZ. unfold verity_run.
  assert (NT : (n <= vtotal n L)%N) by (unfold vtotal; lia).
  assert (M : mult_overflow n vbs = false) by (apply mult_overflow_iff; [reflexivity|unfold vbs; lia]). rewrite M.
  assert (NB : (n < 2 ^ 56)%N).
  { change (2 ^ 56)%N with 72057594037927936%N. unfold u64 in U. change (2 ^ 64)%N with 18446744073709551616%N in U. lia. }
  pose proof (hash_levels_spec n NB) as HS. destruct (hash_levels n) as [[lv e0]|]; [|lia].
  destruct HS as (_ & L' & DP' & -> & -> & TB). rewrite (depth_unique _ _ _ DP' DP) in *. clear L' DP'.
  assert (M2 : mult_overflow (vtotal n L) vbs = false) by (apply mult_overflow_iff; [reflexivity|exact U]). rewrite M2.
  unfold vcall. rewrite !NE. cbn [negb vf_k vf_size vf_disk].
  set (f2 := mkVf _ _ _). destruct (levels_complete n L P NE U L 0 true (repeat 0%N dsize) f2) as (c3 & f3 & RL); [reflexivity|exact SZ|intros l Hl; apply level_ok_iff; intros j J; apply LO; [lia|exact J]|].
  unfold level_table. fold (entry n L). change (lstart n L 0, lcount n 0) with (0%N, n) in RL. rewrite RL.
  change (0%N, n) with (lstart n L 0, lcount n 0) in RL. apply levels_spec in RL; [|exact P|reflexivity|unfold lstart; lia]. destruct RL as (_ & A2 & _). destruct (A2 eq_refl) as [Z3 D3].
  change (map (entry n L) (seq 0 L)) with (level_table n L). rewrite rev_table.
  assert (LT : (lstart n L L + 1 <= vtotal n L)%N).
  { destruct L as [|m]; [unfold lstart; lia|]. rewrite lstart_top by lia. pose proof (level_end n (S m) (S m) ltac:(lia)) as X. rewrite lstart_top in X by lia. destruct DP as [DP _]. rewrite DP in X. lia. }
  destruct (cov_root_complete H salt o HL (lstart n L L) c3 f3 NE) as [f4 C]; [lia|rewrite Z3; unfold f2; cbn [vf_size]; lia|].
  rewrite D3 in C. change (vf_disk f2) with (vf_disk f) in C. rewrite <- RT in C.
  destruct L as [|m].
  - destruct DP as [DP _]. cbn [lcount] in DP. subst n. change (lstart 1 0 0) with 0%N in C. rewrite C. eauto.
  - unfold entry at 1. rewrite C. eauto.
Qed.
End Run.

(** ** the root hash binds the content *)
Lemma digests_nth d d' k : forall q q', digests H salt d q k = digests H salt d' q' k -> forall i, i < k -> H (salt ++ vblock d (q + N.of_nat i)) = H (salt ++ vblock d' (q' + N.of_nat i)).
Proof.
  induction k as [|k IH]; intros q q' E i I; [lia|]. cbn [digests] in E. apply app_inj_len in E; [|now rewrite !HL]. destruct E as [E1 E2].
  destruct i as [|i]; [rewrite !N.add_0_r; exact E1|]. specialize (IH _ _ E2 i ltac:(lia)).
  replace (q + N.of_nat (S i))%N with (q + 1 + N.of_nat i)%N by lia. replace (q' + N.of_nat (S i))%N with (q' + 1 + N.of_nat i)%N by lia. exact IH.
Qed.
Lemma range_dec (P Q : N -> Prop) k : (forall c, (c < N.of_nat k)%N -> P c \/ Q c) -> (forall c, (c < N.of_nat k)%N -> P c) \/ exists c, (c < N.of_nat k)%N /\ Q c.
Proof.
  induction k as [|k IH]; intros A; [left; intros c C; lia|].
  destruct (IH ltac:(intros c C; apply A; lia)) as [X|(c & C & X)]; [|right; exists c; split; [lia|exact X]].
  destruct (A (N.of_nat k) ltac:(lia)) as [Y|Y]; [left|right; exists (N.of_nat k); split; [lia|exact Y]].
  intros c C. destruct (N.eq_dec c (N.of_nat k)) as [->|]; [exact Y|]. apply X. lia.
Qed.
Lemma salt_collision a b : a <> b -> H (salt ++ a) = H (salt ++ b) -> collision H (salt ++ a) (salt ++ b).
Proof. intros NE E. split; [intros Q; apply app_inv_head in Q; contradiction|exact E]. Qed.

Lemma binding d1 d2 n L root : (0 < n)%N -> verity_format H salt d1 n L root -> verity_format H salt d2 n L root ->
  (exists q, (q < vtotal n L)%N /\ collision H (salt ++ vblock d1 q) (salt ++ vblock d2 q)) \/
  (forall l c, l <= L -> (c < lcount n l)%N -> vblock d1 (lstart n L l + c) = vblock d2 (lstart n L l + c)).
Proof.
  intros P (DP & A1 & R1) (_ & A2 & R2).
  assert (TOT : forall l, l <= L -> (lstart n L l + lcount n l <= vtotal n L)%N).
  { intros l Hl. destruct l as [|l]; [unfold lstart; cbn [lcount]; unfold vtotal; lia|apply level_end; lia]. }
  assert (G : forall k, k <= L -> (exists q, (q < vtotal n L)%N /\ collision H (salt ++ vblock d1 q) (salt ++ vblock d2 q)) \/
     (forall l c, L - k <= l <= L -> (c < lcount n l)%N -> vblock d1 (lstart n L l + c) = vblock d2 (lstart n L l + c))).
  { induction k as [|k IH]; intros KL.
    - destruct (bytes_dec (vblock d1 (lstart n L L)) (vblock d2 (lstart n L L))) as [EQ|NE].
      + right. intros l c Hl C. assert (l = L) by lia. subst l. destruct DP as [DP _]. rewrite DP in C. assert (c = 0%N) by lia. subst c. rewrite N.add_0_r. exact EQ.
      + left. exists (lstart n L L). split; [|apply salt_collision; [exact NE|congruence]]. pose proof (TOT L (le_n L)). destruct DP as [DP _]. lia.
    - destruct (IH ltac:(lia)) as [X|X]; [now left|]. set (l := L - S k). assert (LL : l < L) by lia.
      destruct (range_dec (fun c => vblock d1 (lstart n L l + c) = vblock d2 (lstart n L l + c))
        (fun c => collision H (salt ++ vblock d1 (lstart n L l + c)) (salt ++ vblock d2 (lstart n L l + c))) (N.to_nat (lcount n l))) as [Y|(c & C & Y)].
      + rewrite N2Nat.id. intros c C. destruct (bytes_dec (vblock d1 (lstart n L l + c)) (vblock d2 (lstart n L l + c))) as [EQ|NE]; [now left|right]. apply salt_collision; [exact NE|].
        set (j := (c / 128)%N). pose proof (N.div_mod c 128 ltac:(lia)) as DM. pose proof (N.mod_lt c 128 ltac:(lia)) as ML. fold j in DM. set (i := (c mod 128)%N) in *. clearbody i.
        assert (J : (j < lcount n (S l))%N).
        { cbn [lcount]. pose proof (N.div_mod (lcount n l + 127) 128 ltac:(lia)). pose proof (N.mod_lt (lcount n l + 127) 128 ltac:(lia)). lia. }
        pose proof (X (S l) j ltac:(lia) J) as PE. unfold is_parent in A1, A2. rewrite (A1 l j LL J), (A2 l j LL J) in PE.
        apply app_inj_len in PE; [|now rewrite !digests_length by exact HL]. destruct PE as [PE _].
        assert (I : N.to_nat i < children (lcount n l) j) by (unfold children; lia).
        pose proof (digests_nth _ _ _ _ _ PE (N.to_nat i) I) as DE. rewrite N2Nat.id in DE. replace (lstart n L l + 128 * j + i)%N with (lstart n L l + c)%N in DE by lia. exact DE.
      + right. rewrite N2Nat.id in Y. intros l' c Hl' C. destruct (Nat.eq_dec l' l) as [->|]; [now apply Y|]. apply X; [lia|exact C].
      + left. rewrite N2Nat.id in C. exists (lstart n L l + c)%N. split; [|exact Y]. pose proof (TOT l ltac:(lia)). lia. }
  destruct (G L (le_n L)) as [X|X]; [now left|right]. intros l c Hl C. apply X; [lia|exact C].
Qed.
End WithH.

Lemma c21_create_ok : forall H salt o n f r f', (forall x, List.length (H x) = 32) ->
  verity_create H salt o n f = (r, f') ->
  (* the payload is never modified *)
  (forall p, (p < n * 4096)%N -> vf_disk f' p = vf_disk f p) /\
  (* success: the hash tree is complete behind it, and nothing else was written *)
  (forall e root, r = Some (e, root) ->
     exists L, verity_format H salt (vf_disk f') n L root /\ e = vtotal n L /\ (e * 4096 <= vf_size f')%N /\
       same_outside (n * 4096) (e * 4096) (vf_disk f) (vf_disk f')).
Proof.
  intros H salt o n f r f' HL E. unfold verity_create in E. destruct (verity_run H salt o false n f) as [[[r1 e1] d1] f1] eqn:R. apply (run_spec H salt HL) in R.
  destruct R as (A & _ & B). assert (X : f' = f1 /\ forall e root, r = Some (e, root) -> r1 = V0 /\ e = e1 /\ root = d1).
  { destruct r1; injection E as <- <-; split; auto; intros e root Q; try discriminate. injection Q as <- <-. auto. }
  destruct X as [-> X]. split; [exact A|]. intros e root Q. destruct (X e root Q) as (V & -> & ->). destruct (B V) as (L & _ & EE & _ & _ & F & S & O). exists L. auto.
Qed.

Lemma c21_verify_ok : forall H salt o n root f f', (forall x, List.length (H x) = 32) ->
  verity_verify H salt o n root f = (V0, f') ->
  vf_disk f' = vf_disk f /\ vf_size f' = vf_size f /\
  exists L, verity_format H salt (vf_disk f) n L root /\ (vtotal n L * 4096 <= vf_size f)%N.
Proof.
  intros H salt o n root f f' HL E. unfold verity_verify in E. destruct (verity_run H salt o true n f) as [[[r1 e1] d1] f1] eqn:R. apply (run_spec H salt HL) in R.
  destruct R as (_ & A & B). destruct (A eq_refl) as [D Z]. destruct r1; try discriminate. destruct (digest_eqb root d1) eqn:Q; [|discriminate]. injection E as <-.
  unfold digest_eqb in Q. destruct (memcmp root d1) eqn:M; try discriminate. apply memcmp_eq in M. subst d1. destruct (B eq_refl) as (L & _ & -> & _ & _ & F & S & _). rewrite D, Z in *. eauto.
Qed.

Lemma c21_complete_ok : forall H salt o n L root f, (forall x, List.length (H x) = 32) -> no_errors o ->
  verity_format H salt (vf_disk f) n L root -> (0 < n)%N -> (vtotal n L * 4096 <= vf_size f)%N -> (vf_size f < 2 ^ 64)%N ->
  exists f', verity_verify H salt o n root f = (V0, f').
Proof.
  intros H salt o n L root f HL NE F P SZ U. destruct (run_complete H salt HL o n L f root NE) as (e & f' & R); auto.
  { eapply N.le_lt_trans; [exact SZ|exact U]. }
  unfold verity_verify. rewrite R. unfold digest_eqb. rewrite memcmp_refl. eauto.
Qed.

Lemma c21_create_verify_ok : forall H salt o o' n f e root f', (forall x, List.length (H x) = 32) -> no_errors o' ->
  verity_create H salt o n f = (Some (e, root), f') ->
  exists f'', verity_verify H salt o' n root f' = (V0, f'') /\ vf_disk f'' = vf_disk f'.
Proof.
  intros H salt o o' n f e root f' HL NE E. unfold verity_create in E. destruct (verity_run H salt o false n f) as [[[r1 e1] d1] f1] eqn:R. apply (run_spec H salt HL) in R.
  destruct R as (_ & _ & B). destruct r1; try discriminate. injection E as <- <- <-. destruct (B eq_refl) as (L & _ & -> & P & U & F & S & _).
  destruct (run_complete H salt HL o' n L f1 d1 NE U P F S) as (e2 & f2 & R). 
  assert (V : verity_verify H salt o' n d1 f1 = (V0, f2)) by (unfold verity_verify; rewrite R; unfold digest_eqb; now rewrite memcmp_refl).
  exists f2. split; [exact V|]. now apply c21_verify_ok in V.
Qed.

Lemma c21_binding_ok : forall H salt o1 o2 n root f1 f2 f1' f2', (forall x, List.length (H x) = 32) ->
  verity_verify H salt o1 n root f1 = (V0, f1') -> verity_verify H salt o2 n root f2 = (V0, f2') ->
  (* the payloads are equal *)
  (forall p, (p < n * 4096)%N -> vf_disk f1 p = vf_disk f2 p) \/
  (* or two blocks at the same place collide *)
  exists q, ((q + 1) * 4096 <= vf_size f1)%N /\ collision H (salt ++ vblock (vf_disk f1) q) (salt ++ vblock (vf_disk f2) q).
Proof.
  intros H salt o1 o2 n root f1 f2 f1' f2' HL E1 E2. 
  destruct (N.eq_dec n 0) as [->|NZ]; [left; intros p; lia|].
  apply c21_verify_ok in E1; [|exact HL]. apply c21_verify_ok in E2; [|exact HL]. destruct E1 as (_ & _ & L & F1 & S1). destruct E2 as (_ & _ & L' & F2 & _).
  assert (L' = L) by (eapply depth_unique; [apply F2|apply F1]). subst L'.
  destruct (binding H salt HL _ _ n L root ltac:(lia) F1 F2) as [(q & Q & C)|EQ]; [right; exists q; split; [lia|exact C]|left].
  intros p Hp. set (q := (p / 4096)%N). pose proof (N.div_mod p 4096 ltac:(lia)) as DM. pose proof (N.mod_lt p 4096 ltac:(lia)) as ML. fold q in DM. set (i := (p mod 4096)%N) in *. clearbody i q.
  specialize (EQ 0 q ltac:(lia)). cbn [lcount lstart] in EQ. specialize (EQ ltac:(lia)). rewrite N.add_0_l in EQ. pose proof VB as VB.
  assert (X : forall d, nth (N.to_nat i) (vblock d q) 0%N = d p) by (intros d; unfold vblock; rewrite dread_nth by lia; f_equal; lia).
  rewrite <- (X (vf_disk f1)), <- (X (vf_disk f2)). now rewrite EQ.
Qed.

Lemma c21_layout_ok : forall n L, (0 < n)%N -> depth n L ->
  (* data and levels are disjoint, and the tree is smaller than the data *)
  (forall i, 0 < i <= L -> (n <= lstart n L i)%N /\ (lstart n L i + lcount n i <= vtotal n L)%N) /\
  (forall i j, 0 < i < j -> j <= L -> (lstart n L j + lcount n j <= lstart n L i)%N) /\
  (vtotal n L < 2 * n)%N.
Proof.
  intros n L P DP. sp.
  - intros i Hi. split; [apply lstart_ge; lia|apply level_end; lia].
  - intros i j [I J] JL. pose proof (lstart_step n L (j - 1) ltac:(lia)) as S. replace (Datatypes.S (j - 1)) with j in S by lia. rewrite <- S. apply lstart_mono; lia.
  - unfold vtotal. pose proof (above_bound n 0 L P ltac:(intros i Hi; apply DP; exact Hi)). cbn [lcount] in *. lia.
Qed.
