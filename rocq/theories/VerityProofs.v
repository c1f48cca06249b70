From Verif Require Import Base Disk DiskLemmas ExactIO ExactIOProofs BootRegion BootRegionSpec BootRegionProofs HashIndex HashIndexSpec HashIndexProofs AdaptiveProofs Verity VeritySpec VerityLayout.

(** ** the loops *)
Lemma app_inj_len {A} (a b c d : list A) : a ++ b = c ++ d -> List.length a = List.length c -> a = c /\ b = d.
Proof. revert c. induction a; intros [|x c] E L; try discriminate; cbn in *; [auto|]. injection E as -> E. injection L as L. destruct (IHa c E L) as [-> ->]. auto. Qed.
Lemma VB : N.of_nat vbsn = 4096%N. Proof. unfold vbsn. now rewrite N2Nat.id. Qed.
#[global] Opaque vbsn.
Section WithH.
Variable H : list byte -> digest.
Variable salt : list byte.
Variable o : voracle.
Hypothesis HL : forall x, List.length (H x) = 32.

Lemma fread_spec pos n f r f' : fread o pos n f = (r, f') ->
  vf_disk f' = vf_disk f /\ vf_size f' = vf_size f /\ (forall l, r = Some l -> l = dread (vf_disk f) pos n /\ (pos + N.of_nat n <= vf_size f)%N).
Proof.
  unfold fread. destruct (o (vf_k f)); [intros E; injection E as <- <-; sp; auto; discriminate|].
  destruct (N.leb_spec (pos + N.of_nat n) (vf_size f)); intros E; injection E as <- <-; sp; auto; try discriminate.
  intros l E. injection E as <-. auto.
Qed.
Lemma fread_ok pos n f : no_errors o -> (pos + N.of_nat n <= vf_size f)%N -> exists f', fread o pos n f = (Some (dread (vf_disk f) pos n), f').
Proof. intros NE L. unfold fread. rewrite NE. apply N.leb_le in L. rewrite L. eauto. Qed.
Lemma digests_length d q k : List.length (digests H salt d q k) = 32 * k.
Proof. revert q. induction k; intros q; [reflexivity|]. cbn [digests]. rewrite app_length, HL, IHk. lia. Qed.
Lemma digests_ext d d' k : forall q, (forall p, (q * 4096 <= p < (q + N.of_nat k) * 4096)%N -> d p = d' p) -> digests H salt d q k = digests H salt d' q k.
Proof.
  induction k; intros q E; [reflexivity|]. cbn [digests]. f_equal.
  - do 2 f_equal. unfold vblock. apply dread_ext. intros p P. apply E. rewrite VB in P. lia.
  - apply IHk. intros p P. apply E. lia.
Qed.

Definition inner_post (verify : bool) (i : nat) (s : vloop) (q : N) (f : vfile) (r : vres) (s' : vloop) (f' : vfile) : Prop :=
  let k := Nat.min i (l_blocks s) in
  (vf_size f <= vf_size f')%N /\
  (verify = true -> f' = mkVf (vf_k f') (vf_size f) (vf_disk f)) /\
  same_outside (l_wr s) (l_wr s + 32 * N.of_nat k) (vf_disk f) (vf_disk f') /\
  (r = V0 ->
     l_blocks s' = l_blocks s - k /\ l_rd s' = (l_rd s + 4096 * N.of_nat k)%N /\ l_wr s' = (l_wr s + 32 * N.of_nat k)%N /\ l_left s' = l_left s - 32 * k /\
     ((q + N.of_nat k) * 4096 <= vf_size f')%N /\ (k <> 0 -> (l_wr s + 32 * N.of_nat k <= vf_size f')%N) /\
     (verify = true \/ (l_wr s + 32 * N.of_nat k <= q * 4096)%N \/ ((q + N.of_nat k) * 4096 <= l_wr s)%N ->
        dread (vf_disk f') (l_wr s) (32 * k) = digests H salt (vf_disk f) q k)).
Lemma vf_eta f' (k : nat) sz d : f' = mkVf (vf_k f') sz d -> vf_size f' = sz /\ vf_disk f' = d.
Proof. intros E. rewrite E. auto. Qed.
Lemma inner_spec verify i : forall s q f r s' f', l_rd s = (q * 4096)%N -> (q * 4096 <= vf_size f)%N ->
  hash_inner i H salt o true verify s f = (r, s', f') -> inner_post verify i s q f r s' f'.
Proof.
  induction i as [|i IH]; intros s q f r s' f' RD SZ E.
  - cbn [hash_inner] in E. injection E as <- <- <-. unfold inner_post. cbn [Nat.min]. sp; [lia|intros _; now destruct f|intros p _; reflexivity|].
    intros _. cbn [N.of_nat N.mul]. rewrite !N.add_0_r, !Nat.sub_0_r. sp; auto; lia.
  - cbn [hash_inner] in E. destruct (l_blocks s) as [|b] eqn:B.
    { injection E as <- <- <-. unfold inner_post. rewrite B. cbn [Nat.min]. sp; [lia|intros _; now destruct f|intros p _; reflexivity|].
      intros _. cbn [N.of_nat N.mul]. rewrite !N.add_0_r, !Nat.sub_0_r. sp; auto; lia. }
    assert (N0 : forall rr ss f1, rr <> V0 -> vf_disk f1 = vf_disk f -> vf_size f1 = vf_size f -> (rr, ss, f1) = (r, s', f') -> inner_post verify (S i) s q f r s' f').
    { intros rr ss f1 ND D Z Q. injection Q as <- <- <-. unfold inner_post. sp; [lia|intros _; rewrite <- D, <- Z; now destruct f1|intros p _; now rewrite D|contradiction]. }
    destruct (fread o (l_rd s) vbsn f) as [rd f1] eqn:R. apply fread_spec in R. destruct R as (D1 & Z1 & R).
    destruct rd as [data|]; [|eapply N0; [| | |exact E]; [discriminate|assumption|assumption]].
    destruct (R data eq_refl) as [DA SZ1]. clear R. rewrite VB in SZ1. rewrite RD in DA, SZ1.
    cbn [negb] in E. change (dread (vf_disk f) (q * 4096) vbsn) with (vblock (vf_disk f) q) in DA. subst data.
    set (d := H (salt ++ vblock (vf_disk f) q)) in *.
    assert (DL : List.length d = 32) by apply HL.
    set (s2 := mkVl b (l_rd s + vbs)%N (l_wr s + N.of_nat dsize)%N (l_left s - dsize) d) in *.
    assert (RD2 : l_rd s2 = ((q + 1) * 4096)%N) by (unfold s2; cbn [l_rd]; rewrite RD; unfold vbs; lia).
    assert (WR2 : l_wr s2 = (l_wr s + 32)%N) by reflexivity.
    assert (LF2 : l_left s2 = l_left s - 32) by reflexivity.
    assert (BL2 : l_blocks s2 = b) by reflexivity. clearbody s2.
    assert (MK : Nat.min (S i) (S b) = S (Nat.min i b)) by reflexivity.
    destruct verify.
    + destruct (fread o (l_wr s) dsize f1) as [hd f2] eqn:R2. apply fread_spec in R2. destruct R2 as (D2 & Z2 & R2).
      destruct hd as [hd|]; [|eapply N0; [| | |exact E]; [discriminate|congruence|congruence]].
      destruct (R2 hd eq_refl) as [HD SZ2]. clear R2. rewrite D1 in HD. rewrite Z1 in SZ2. change (N.of_nat dsize) with 32%N in SZ2.
      destruct (digest_eqb hd d) eqn:Q; [|eapply N0; [| | |exact E]; [discriminate|congruence|congruence]].
      unfold digest_eqb in Q. destruct (memcmp hd d) eqn:M; try discriminate. apply memcmp_eq in M. clear Q.
      apply IH with (q := (q + 1)%N) in E; [|exact RD2|lia]. unfold inner_post in *. rewrite B, MK. rewrite BL2, WR2, LF2, RD2 in E.
      set (k := Nat.min i b) in *. clearbody k. destruct E as (E1 & E2 & E3 & E4).
      assert (DD : vf_disk f2 = vf_disk f) by congruence. assert (ZZ : vf_size f2 = vf_size f) by congruence. rewrite DD, ZZ in *.
      sp; [lia|exact E2|intros p Hp; apply E3; lia|].
      intros V. destruct (E4 V) as (A1 & A2 & A3 & A4 & A5 & A6 & A7). rewrite A1, A2, A3, A4. sp; try lia.
      intros _. replace (32 * S k) with (32 + 32 * k) by lia. rewrite dread_app. cbn [digests]. f_equal.
      * fold d. rewrite <- M, HD. specialize (E2 eq_refl). apply (vf_eta f' 0) in E2. destruct E2 as [_ ->]. reflexivity.
      * change (N.of_nat 32) with 32%N. apply A7. now left.
    + destruct (fwrite o (l_wr s) d f1) as [ok f2] eqn:W. unfold fwrite in W. destruct (o (vf_k f1)) as [m|] eqn:O1.
      * injection W as <- <-. injection E as <- <- <-. unfold inner_post. rewrite B, MK. sp; [cbn [vf_size]; lia|discriminate| |discriminate].
        intros p Hp. cbn [vf_disk]. rewrite dwrite_out, D1; [reflexivity|]. rewrite lenN_firstn. unfold lenN. rewrite DL. lia.
      * injection W as <- <-. set (f2 := mkVf (S (vf_k f1)) (N.max (vf_size f1) (l_wr s + lenN d)) (dwrite (vf_disk f1) (l_wr s) d)) in *.
        assert (DD : vf_disk f2 = dwrite (vf_disk f) (l_wr s) d) by (unfold f2; cbn [vf_disk]; now rewrite D1).
        assert (LD : lenN d = 32%N) by (unfold lenN; now rewrite DL).
        assert (ZZ : vf_size f2 = N.max (vf_size f) (l_wr s + 32)) by (unfold f2; cbn [vf_size]; rewrite Z1; f_equal; f_equal; exact LD). clearbody f2.
        apply IH with (q := (q + 1)%N) in E; [|exact RD2|lia]. unfold inner_post in *. rewrite B, MK. rewrite BL2, WR2, LF2, RD2 in E.
        set (k := Nat.min i b) in *. clearbody k. destruct E as (E1 & E2 & E3 & E4). rewrite ZZ in *.
        sp; [lia|discriminate| |].
        { intros p Hp. rewrite E3, DD by lia. apply dwrite_out. rewrite LD. lia. }
        intros V. destruct (E4 V) as (A1 & A2 & A3 & A4 & A5 & A6 & A7). rewrite A1, A2, A3, A4. sp; try lia.
        intros DJ. replace (32 * S k) with (32 + 32 * k) by lia. rewrite dread_app. cbn [digests]. f_equal.
        -- transitivity d; [|reflexivity]. rewrite <- DL at 1. rewrite <- (dread_dwrite_same (vf_disk f) (l_wr s) d) at 2. apply dread_ext. rewrite DL. intros p Hp.
           rewrite E3, DD by lia. reflexivity.
        -- change (N.of_nat 32) with 32%N. rewrite A7 by (right; destruct DJ as [DJ|DJ]; [discriminate|lia]).
           apply digests_ext. intros p Hp. rewrite DD. apply dwrite_out. rewrite LD. destruct DJ as [DJ|DJ]; [discriminate|lia].
Qed.

Lemma inner_complete i : forall s q f, no_errors o -> l_rd s = (q * 4096)%N -> let k := Nat.min i (l_blocks s) in
  ((q + N.of_nat k) * 4096 <= vf_size f)%N -> (l_wr s + 32 * N.of_nat k <= vf_size f)%N ->
  dread (vf_disk f) (l_wr s) (32 * k) = digests H salt (vf_disk f) q k ->
  exists s' f', hash_inner i H salt o true true s f = (V0, s', f').
Proof.
  induction i as [|i IH]; intros s q f NE RD k S1 S2 EQ; [cbn [hash_inner]; eauto|].
  cbn [hash_inner]. destruct (l_blocks s) as [|b] eqn:B; [eauto|]. subst k. change (Nat.min (S i) (S b)) with (S (Nat.min i b)) in *. set (k := Nat.min i b) in *.
  destruct (fread_ok (l_rd s) vbsn f NE) as [f1 R1]; [rewrite RD; rewrite VB; lia|]. rewrite R1. apply fread_spec in R1. destruct R1 as (D1 & Z1 & _).
  cbn [negb]. destruct (fread_ok (l_wr s) dsize f1 NE) as [f2 R2]; [rewrite Z1; change (N.of_nat dsize) with 32%N; lia|]. rewrite R2. apply fread_spec in R2. destruct R2 as (D2 & Z2 & _).
  replace (32 * S k) with (32 + 32 * k) in EQ by lia. rewrite dread_app in EQ. cbn [digests] in EQ. apply app_inj_len in EQ; [|rewrite dread_length, HL; reflexivity].
  destruct EQ as [EQ1 EQ2]. rewrite RD. change (dread (vf_disk f) (q * 4096) vbsn) with (vblock (vf_disk f) q). rewrite D1. change dsize with 32. rewrite EQ1. unfold digest_eqb. rewrite memcmp_refl.
  eapply (IH _ (q + 1)%N); cbn [l_rd l_wr l_blocks]; fold k; [exact NE|unfold vbs; lia| | |].
  - rewrite Z2, Z1. lia.
  - rewrite Z2, Z1. change (N.of_nat 32) with 32%N. lia.
  - rewrite D2, D1. exact EQ2.
Qed.
Definition kids (b j : nat) : nat := Nat.min 128 (b - 128 * j).
(** the hash blocks [hq] .. [hq]+m-1 of [f'] are the parents of the [b] blocks from [q] on, as they were in [f] *)
Definition hashed (m : nat) (b : nat) (hq q : N) (d d' : disk) : Prop :=
  forall j, j < m -> vblock d' (hq + N.of_nat j) = digests H salt d (q + 128 * N.of_nat j) (kids b j) ++ repeat 0%N (vbsn - 32 * kids b j).
Definition outer_post (verify : bool) (m : nat) (b : nat) (hq q : N) (f : vfile) (r : vres) (f' : vfile) : Prop :=
  (vf_size f <= vf_size f')%N /\
  (verify = true -> f' = mkVf (vf_k f') (vf_size f) (vf_disk f)) /\
  same_outside (hq * 4096) ((hq + N.of_nat m) * 4096) (vf_disk f) (vf_disk f') /\
  (r = V0 ->
     ((q + N.of_nat (Nat.min b (128 * m))) * 4096 <= vf_size f')%N /\ (m <> 0 -> ((hq + N.of_nat m) * 4096 <= vf_size f')%N) /\
     (verify = true \/ (hq + N.of_nat m <= q)%N \/ (q + N.of_nat b <= hq)%N -> hashed m b hq q (vf_disk f) (vf_disk f'))).
Lemma zeros_spec l : forallb (N.eqb 0) l = true -> l = repeat 0%N (List.length l).
Proof. induction l as [|x l IH]; [reflexivity|]. cbn [forallb List.length repeat]. rewrite andb_true_iff, N.eqb_eq. intros [<- E]. f_equal. auto. Qed.
Lemma zeros_ok n : forallb (N.eqb 0) (repeat 0%N n) = true.
Proof. induction n; [reflexivity|]. exact IHn. Qed.
Lemma hashed_ext m b hq q d d2 d' : (forall p, (q * 4096 <= p < (q + N.of_nat b) * 4096)%N -> d p = d2 p) -> hashed m b hq q d2 d' -> hashed m b hq q d d'.
Proof.
  intros E HH j J. rewrite (HH j J). f_equal. apply digests_ext. intros p P. symmetry. apply E. unfold kids in P. lia.
Qed.
Lemma hashed_cons m b hq q d d' k : k = Nat.min 128 b -> 
  vblock d' hq = digests H salt d q k ++ repeat 0%N (vbsn - 32 * k) ->
  hashed m (b - k) (hq + 1) (q + N.of_nat k) d d' -> (128 <= b \/ m = 0) -> hashed (S m) b hq q d d'.
Proof.
  intros K B0 HH BM j J. destruct j as [|j].
  - unfold kids. rewrite Nat.mul_0_r, Nat.sub_0_r, <- K. cbn [N.of_nat N.mul]. rewrite !N.add_0_r. exact B0.
  - specialize (HH j ltac:(lia)). assert (K1 : kids (b - k) j = kids b (S j)) by (unfold kids; lia). rewrite K1 in HH.
    replace (hq + N.of_nat (S j))%N with (hq + 1 + N.of_nat j)%N by lia. rewrite HH. f_equal. f_equal. lia.
Qed.

Lemma hash_outer_S m H' salt' o' wr verify s f : hash_outer (S m) H' salt' o' wr verify s f =
      match hash_inner per_block H' salt' o' wr verify (mkVl (l_blocks s) (l_rd s) (l_wr s) vbsn (l_calc s)) f with
      | (V0, s1, f1) =>
          if wr && negb (Nat.eqb (l_left s1) 0) then
            let s2 := mkVl (l_blocks s1) (l_rd s1) (l_wr s1 + N.of_nat (l_left s1))%N (l_left s1) (l_calc s1) in
            if verify then
              match verify_zero o' (l_wr s1) (l_left s1) f1 with
              | (V0, f2) => hash_outer m H' salt' o' wr verify s2 f2
              | (e, f2) => (e, s1, f2)
              end
            else
              match fwrite o' (l_wr s1) (repeat 0%N (l_left s1)) f1 with
              | (true, f2) => hash_outer m H' salt' o' wr verify s2 f2
              | (false, f2) => (VEio, s1, f2)
              end
          else hash_outer m H' salt' o' wr verify s1 f1
      | e => e
      end.
Proof. reflexivity. Qed.
Lemma outer_spec verify m : forall s b hq q f r s' f', l_blocks s = b -> l_rd s = (q * 4096)%N -> l_wr s = (hq * 4096)%N -> (q * 4096 <= vf_size f)%N -> 128 * m < b + 128 ->
  hash_outer m H salt o true verify s f = (r, s', f') -> outer_post verify m b hq q f r f'.
Proof.
  induction m as [|m IH]; intros s b hq q f r s' f' BL RD WR SZ BM E.
  - cbn [hash_outer] in E. injection E as <- <- <-. unfold outer_post. sp; [lia|intros _; now destruct f|intros p _; reflexivity|].
    intros _. rewrite Nat.mul_0_r, Nat.min_0_r. sp; [lia|lia|]. intros _ j J. lia.
  - rewrite hash_outer_S in E. cbv zeta in E. remember vbsn as lf eqn:VL in E. assert (VBL : N.of_nat lf = 4096%N) by (rewrite VL; exact VB). remember per_block as pb eqn:PB in E.
    destruct (hash_inner pb H salt o true verify (mkVl (l_blocks s) (l_rd s) (l_wr s) lf (l_calc s)) f) as [[r1 s1] f1] eqn:I1.
    apply inner_spec with (q := q) in I1; [|exact RD|exact SZ]. unfold inner_post in I1. cbn [l_blocks l_rd l_wr l_left] in I1. rewrite BL, RD, WR in I1.
    assert (PB' : pb = 128) by exact PB. clear PB. subst pb. remember (Nat.min 128 b) as k eqn:K. destruct I1 as (A1 & A2 & A3 & A4).
    assert (KB : k <= 128) by lia.
    assert (N0 : forall rr ss, rr <> V0 -> (rr, ss, f1) = (r, s', f') -> outer_post verify (S m) b hq q f r f').
    { intros rr ss ND Q. injection Q as <- <- <-. unfold outer_post. sp; [exact A1|exact A2|intros p Hp; apply A3; lia|contradiction]. }
    destruct r1; try (eapply N0; [|exact E]; discriminate). clear N0. destruct (A4 eq_refl) as (B1 & B2 & B3 & B4 & B5 & B6 & B7). clear A4.
    (* the rest of the block *)
    assert (REST : exists r2 s2 f2, 
      (vf_size f1 <= vf_size f2)%N /\ (verify = true -> f2 = mkVf (vf_k f2) (vf_size f1) (vf_disk f1)) /\ same_outside (hq * 4096 + 32 * N.of_nat k) (hq * 4096 + 4096) (vf_disk f1) (vf_disk f2) /\
      ((r2 <> V0 /\ (r2, s2, f2) = (r, s', f')) \/
       (r2 = V0 /\ hash_outer m H salt o true verify s2 f2 = (r, s', f') /\ l_blocks s2 = b - k /\ l_rd s2 = ((q + N.of_nat k) * 4096)%N /\ l_wr s2 = ((hq + 1) * 4096)%N /\
        (hq * 4096 + 4096 <= vf_size f2)%N /\ dread (vf_disk f2) (hq * 4096 + 32 * N.of_nat k) (lf - 32 * k) = repeat 0%N (lf - 32 * k)))).
    { cbn [andb] in E. rewrite B4 in E. destruct (Nat.eqb_spec (lf - 32 * k) 0) as [Z|NZ]; cbn [negb] in E.
      - exists V0, s1, f1. sp; [lia|intros _; now destruct f1|intros p _; reflexivity|]. right. rewrite B1, B2, B3. sp; auto; [lia|lia| |].
        + specialize (B6 ltac:(lia)). lia.
        + now rewrite Z.
      - destruct verify.
        + unfold verify_zero in E. destruct (fread o (l_wr s1) (lf - 32 * k) f1) as [rd f2] eqn:R. apply fread_spec in R. destruct R as (D2 & Z2 & R).
          destruct rd as [l|].
          * destruct (R l eq_refl) as [RL RS]. clear R. destruct (forallb (N.eqb 0) l) eqn:FB.
            -- apply zeros_spec in FB. exists V0. eexists _, f2. sp; [lia|intros _; rewrite <- D2, <- Z2; now destruct f2|intros p _; now rewrite D2|]. right. sp; [reflexivity|exact E| | | | |]; cbn [l_blocks l_rd l_wr].
               ++ exact B1.
               ++ rewrite B2. lia.
               ++ rewrite B3. lia.
               ++ rewrite Z2. rewrite B3 in RS. lia.
               ++ rewrite D2, <- B3, <- RL. rewrite FB. rewrite RL, dread_length. reflexivity.
            -- exists VEperm, s1, f2. sp; [lia|intros _; rewrite <- D2, <- Z2; now destruct f2|intros p _; now rewrite D2|]. left. split; [discriminate|exact E].
          * exists VEio, s1, f2. sp; [lia|intros _; rewrite <- D2, <- Z2; now destruct f2|intros p _; now rewrite D2|]. left. split; [discriminate|exact E].
        + unfold fwrite in E. set (zs := repeat 0%N (lf - 32 * k)) in *. assert (ZL : @List.length byte zs = lf - 32 * k) by apply repeat_length. clearbody zs.
          destruct (o (vf_k f1)) as [mm|].
          * eexists VEio, s1, _. sp; [| |intros p Hp|left; split; [discriminate|exact E]]; cbn [vf_size vf_disk]; [lia|discriminate|].
            rewrite dwrite_out; [reflexivity|]. rewrite lenN_firstn. unfold lenN. rewrite ZL, B3. lia.
          * eexists V0, _, _. sp; [| | |right; sp; [reflexivity|exact E| | | | |]]; cbn [vf_size vf_disk l_blocks l_rd l_wr]; [lia|discriminate| |exact B1|rewrite B2; lia|rewrite B3; lia| |].
            -- intros p Hp. rewrite dwrite_out; [reflexivity|]. unfold lenN. rewrite ZL, B3. lia.
            -- unfold lenN. rewrite ZL, B3. lia.
            -- rewrite <- ZL, <- B3. apply dread_dwrite_same. }
    destruct REST as (r2 & s2 & f2 & C1 & C2 & C3 & C4).
    assert (V2 : verify = true -> vf_disk f2 = vf_disk f /\ vf_size f2 = vf_size f).
    { intros V. specialize (A2 V). specialize (C2 V). apply (vf_eta f1 0) in A2. apply (vf_eta f2 0) in C2. destruct A2, C2. split; congruence. }
    assert (SO : same_outside (hq * 4096) (hq * 4096 + 4096) (vf_disk f) (vf_disk f2)).
    { intros p Hp. rewrite C3 by lia. apply A3. lia. }
    destruct C4 as [[ND C4]|(-> & C4 & C5 & C6 & C7 & C8 & C9)].
    { injection C4 as <- <- <-. unfold outer_post. sp; [lia| |intros p Hp; apply SO; lia|contradiction].
      intros V. destruct (V2 V) as [<- <-]. now destruct f2. }
    apply IH with (b := b - k) (hq := (hq + 1)%N) (q := (q + N.of_nat k)%N) in C4; [|exact C5|exact C6|exact C7|lia|lia].
    destruct C4 as (D1 & D2 & D3 & D4). unfold outer_post. sp.
    + lia.
    + intros V. destruct (V2 V) as [X Y]. rewrite X, Y in D2. auto.
    + intros p Hp. rewrite D3 by lia. apply SO. lia.
    + intros V. destruct (D4 V) as (G1 & G2 & G3). sp.
      * replace (Nat.min b (128 * S m)) with (k + Nat.min (b - k) (128 * m)) by lia. lia.
      * intros _. destruct m as [|m']; [change (N.of_nat 1) with 1%N; lia|specialize (G2 ltac:(lia)); lia].
      * intros DJ. eapply hashed_cons; [exact K| | |lia]; rewrite <- ?VL.
        -- unfold vblock. rewrite <- VL. replace lf with (32 * k + (lf - 32 * k)) at 1 by lia. rewrite dread_app. f_equal.
           ++ rewrite <- B7 by (destruct DJ as [DJ|DJ]; [now left|right; lia]). apply dread_ext. intros p Hp. rewrite D3 by lia. apply C3. lia.
           ++ rewrite <- C9. replace (hq * 4096 + N.of_nat (32 * k))%N with (hq * 4096 + 32 * N.of_nat k)%N by lia. apply dread_ext. intros p Hp. apply D3. lia.
        -- eapply hashed_ext; [|apply G3; destruct DJ as [DJ|DJ]; [now left|right; lia]].
           intros p Hp. destruct DJ as [V'|DJ]; [now destruct (V2 V') as [-> _]|]. symmetry. apply SO. lia.
Qed.
Lemma outer_complete m : forall s b hq q f, no_errors o -> l_blocks s = b -> l_rd s = (q * 4096)%N -> l_wr s = (hq * 4096)%N -> 128 * m < b + 128 ->
  ((q + N.of_nat (Nat.min b (128 * m))) * 4096 <= vf_size f)%N -> ((hq + N.of_nat m) * 4096 <= vf_size f)%N ->
  hashed m b hq q (vf_disk f) (vf_disk f) -> exists s' f', hash_outer m H salt o true true s f = (V0, s', f').
Proof.
  induction m as [|m IH]; intros s b hq q f NE BL RD WR BM S1 S2 HH; [cbn [hash_outer]; eauto|].
  rewrite hash_outer_S. cbv zeta.
  pose proof (HH 0 ltac:(lia)) as H0. change (N.of_nat 0) with 0%N in H0. rewrite N.mul_0_r, !N.add_0_r in H0. unfold kids in H0. rewrite Nat.mul_0_r, Nat.sub_0_r in H0.
  remember (Nat.min 128 b) as k eqn:K. assert (KB : k <= 128) by lia.
  unfold vblock in H0. remember vbsn as lf eqn:VL in H0 |- *. assert (VBL : N.of_nat lf = 4096%N) by (rewrite VL; exact VB).
  replace lf with (32 * k + (lf - 32 * k)) in H0 at 1 by lia. rewrite dread_app in H0. apply app_inj_len in H0; [|rewrite dread_length, digests_length; reflexivity].
  destruct H0 as [H1 H2]. remember per_block as pb eqn:PB in |- *. assert (PB' : pb = 128) by exact PB. clear PB. subst pb.
  set (s0 := mkVl (l_blocks s) (l_rd s) (l_wr s) lf (l_calc s)).
  assert (X : exists s1 f1, hash_inner 128 H salt o true true s0 f = (V0, s1, f1)).
  { apply (inner_complete 128 s0 q f NE RD); unfold s0; cbn [l_blocks l_rd l_wr]; rewrite ?BL, ?RD, ?WR, <- ?K; [|lia|exact H1].
    replace (Nat.min b (128 * S m)) with (k + Nat.min (b - k) (128 * m)) in S1 by lia. lia. }
  destruct X as (s1 & f1 & E1). rewrite E1. apply inner_spec with (q := q) in E1; [|exact RD|]. 2:{ lia. }
  unfold inner_post, s0 in E1. cbn [l_blocks l_rd l_wr l_left] in E1. rewrite BL, RD, WR, <- K in E1. destruct E1 as (_ & A2 & _ & A4).
  destruct (A4 eq_refl) as (B1 & B2 & B3 & B4 & _). specialize (A2 eq_refl). apply (vf_eta f1 0) in A2. destruct A2 as [Z1 D1].
  assert (HH' : hashed m (b - k) (hq + 1) (q + N.of_nat k) (vf_disk f) (vf_disk f)).
  { intros j J. specialize (HH (S j) ltac:(lia)). assert (K1 : kids b (S j) = kids (b - k) j) by (unfold kids; lia). rewrite K1 in HH.
    replace (hq + N.of_nat (S j))%N with (hq + 1 + N.of_nat j)%N in HH by lia. rewrite HH. f_equal. f_equal. lia. }
  assert (NX : forall s2 f2, l_blocks s2 = b - k -> l_rd s2 = ((q + N.of_nat k) * 4096)%N -> l_wr s2 = ((hq + 1) * 4096)%N -> vf_size f2 = vf_size f -> vf_disk f2 = vf_disk f ->
    exists s' f', hash_outer m H salt o true true s2 f2 = (V0, s', f')).
  { intros s2 f2 C1 C2 C3 C4 C5. apply (IH s2 (b - k) (hq + 1)%N (q + N.of_nat k)%N f2); auto; rewrite ?C4, ?C5; auto; lia. }
  cbn [andb]. rewrite B4. destruct (Nat.eqb_spec (lf - 32 * k) 0) as [Z|NZ]; cbn [negb].
  - apply NX; auto; lia.
  - unfold verify_zero. destruct (fread_ok (l_wr s1) (lf - 32 * k) f1 NE) as [f2 R]; [rewrite Z1, B3; lia|]. rewrite R. apply fread_spec in R. destruct R as (D2 & Z2 & _).
    rewrite D1, B3. replace (hq * 4096 + N.of_nat (32 * k))%N with (hq * 4096 + 32 * N.of_nat k)%N in H2 by lia. rewrite H2, zeros_ok.
    apply NX; cbn [l_blocks l_rd l_wr]; try congruence; lia.
Qed.

(** ** create_or_verify *)
Lemma vcall_spec f ok f' : vcall o f = (ok, f') -> vf_disk f' = vf_disk f /\ vf_size f' = vf_size f.
Proof. unfold vcall. intros E. injection E as <- <-. auto. Qed.
Definition up (b : N) : nat := N.to_nat ((b + 127) / 128).
Lemma up_spec b : (128 * (N.of_nat (up b)) < b + 128)%N /\ (b <= 128 * N.of_nat (up b))%N.
Proof.
  unfold up. rewrite N2Nat.id. pose proof (N.div_mod (b + 127) 128 ltac:(lia)). pose proof (N.mod_lt (b + 127) 128 ltac:(lia)). lia.
Qed.
Lemma cov_unfold verify db hb b calc f : create_or_verify H salt o verify db hb b calc f =
  let h := match hb with Some h => h | None => 0%N end in
  if mult_overflow db vbs || mult_overflow h vbs then (VEinval, calc, f) else
  let '(ok, f1) := vcall o f in
  if negb ok then (VEio, calc, f1) else
  let '(ok, f2) := match hb with Some _ => vcall o f1 | None => (true, f1) end in
  if negb ok then (VEio, calc, f2) else
  let '(r, s, f3) := hash_outer (up b) H salt o (match hb with Some _ => true | None => false end) verify
    (mkVl (N.to_nat b) ((db * vbs) mod u64) ((h * vbs) mod u64) 0 calc) f2 in
  (r, l_calc s, f3).
Proof.
  unfold create_or_verify, up. replace ((b + N.of_nat per_block - 1) / N.of_nat per_block)%N with ((b + 127) / 128)%N; [reflexivity|].
  change (N.of_nat per_block) with 128%N. f_equal. lia.
Qed.

Definition cov_post (verify : bool) (q hq b : N) (f : vfile) (r : vres) (f' : vfile) : Prop :=
  let m := up b in
  (vf_size f <= vf_size f')%N /\
  (verify = true -> vf_size f' = vf_size f /\ vf_disk f' = vf_disk f) /\
  same_outside (hq * 4096) ((hq + N.of_nat m) * 4096) (vf_disk f) (vf_disk f') /\
  (r = V0 -> ((q + b) * 4096 <= vf_size f')%N /\ (m <> 0 -> ((hq + N.of_nat m) * 4096 <= vf_size f')%N) /\
     (verify = true \/ (hq + N.of_nat m <= q)%N \/ (q + b <= hq)%N -> hashed m (N.to_nat b) hq q (vf_disk f) (vf_disk f'))).
Lemma cov_spec verify q hq b calc f r c' f' : (q * 4096 <= vf_size f)%N ->
  create_or_verify H salt o verify q (Some hq) b calc f = (r, c', f') -> cov_post verify q hq b f r f'.
Proof.
  intros SZ E. rewrite cov_unfold in E. cbv zeta in E.
  assert (N0 : forall rr cc f1, rr <> V0 -> vf_disk f1 = vf_disk f -> vf_size f1 = vf_size f -> (rr, cc, f1) = (r, c', f') -> cov_post verify q hq b f r f').
  { intros rr cc f1 ND D Z Q. injection Q as <- <- <-. unfold cov_post. sp; [lia|auto|intros p _; now rewrite D|contradiction]. }
  destruct (mult_overflow q vbs) eqn:M1; [eapply N0; [| | |exact E]; [discriminate|reflexivity|reflexivity]|].
  destruct (mult_overflow hq vbs) eqn:M2; [eapply N0; [| | |exact E]; [discriminate|reflexivity|reflexivity]|]. cbn [orb] in E.
  destruct (vcall o f) as [ok f1] eqn:V1. apply vcall_spec in V1 as [D1 Z1]. destruct ok; cbn [negb] in E; [|eapply N0; [| | |exact E]; [discriminate|assumption|assumption]].
  destruct (vcall o f1) as [ok f2] eqn:V2. apply vcall_spec in V2 as [D2 Z2]. destruct ok; cbn [negb] in E; [|eapply N0; [| | |exact E]; [discriminate|congruence|congruence]].
  rewrite (small_block _ M1), (small_block _ M2) in E. destruct (hash_outer _ _ _ _ _ _ _ _) as [[r3 s3] f3] eqn:O3. injection E as <- <- <-.
  pose proof (up_spec b) as [U1 U2].
  apply outer_spec with (b := N.to_nat b) (hq := hq) (q := q) in O3; cbn [l_blocks l_rd l_wr]; auto; [|rewrite Z2, Z1; exact SZ|lia].
  unfold outer_post in O3. rewrite D2, D1, Z2, Z1 in O3. destruct O3 as (A1 & A2 & A3 & A4). unfold cov_post. sp; auto.
  - intros V. specialize (A2 V). apply (vf_eta f3 0) in A2. tauto.
  - intros V. destruct (A4 V) as (B1 & B2 & B3). replace (Nat.min (N.to_nat b) (128 * up b)) with (N.to_nat b) in B1 by lia. rewrite N2Nat.id in B1. sp; auto.
    intros DJ. apply B3. rewrite N2Nat.id. exact DJ.
Qed.
Lemma cov_complete q hq b calc f : no_errors o -> (q * 4096 < u64)%N -> (hq * 4096 < u64)%N ->
  ((q + b) * 4096 <= vf_size f)%N -> ((hq + N.of_nat (up b)) * 4096 <= vf_size f)%N ->
  hashed (up b) (N.to_nat b) hq q (vf_disk f) (vf_disk f) ->
  exists c' f', create_or_verify H salt o true q (Some hq) b calc f = (V0, c', f').
Proof.
  intros NE Q HQ S1 S2 HH. rewrite cov_unfold. cbv zeta.
  assert (M1 : mult_overflow q vbs = false) by (apply mult_overflow_iff; [reflexivity|exact Q]).
  assert (M2 : mult_overflow hq vbs = false) by (apply mult_overflow_iff; [reflexivity|exact HQ]). rewrite M1, M2. cbn [orb].
  unfold vcall. rewrite !NE. cbn [negb vf_k]. rewrite (small_block _ M1), (small_block _ M2). pose proof (up_spec b) as [U1 U2].
  edestruct (outer_complete (up b)) as (s' & f' & ->); [exact NE|reflexivity|reflexivity|reflexivity|cbn [l_blocks]; lia| | | |eauto]; cbn [vf_size vf_disk l_blocks]; auto.
  replace (Nat.min (N.to_nat b) (128 * up b)) with (N.to_nat b) by lia. rewrite N2Nat.id. exact S1.
Qed.
(** the root *)
Lemma inner_nowr i verify s f : l_blocks s = 1 -> hash_inner (S i) H salt o false verify s f =
  match fread o (l_rd s) vbsn f with
  | (None, f1) => (VEio, mkVl 0 (l_rd s) (l_wr s) (l_left s) (l_calc s), f1)
  | (Some data, f1) => (V0, mkVl 0 (l_rd s + vbs)%N (l_wr s) (l_left s) (H (salt ++ data)), f1)
  end.
Proof. intros B. cbn [hash_inner]. rewrite B. reflexivity. Qed.
Lemma outer_nowr verify rd f w left calc : hash_outer 1 H salt o false verify (mkVl 1 rd w left calc) f =
  match fread o rd vbsn f with
  | (None, f1) => (VEio, mkVl 0 rd w vbsn calc, f1)
  | (Some data, f1) => (V0, mkVl 0 (rd + vbs)%N w vbsn (H (salt ++ data)), f1)
  end.
Proof.
  rewrite hash_outer_S. assert (P : exists i, per_block = S i) by (exists 127; reflexivity). destruct P as [i P]. rewrite P, inner_nowr by reflexivity.
  cbn [l_blocks l_rd l_wr l_left l_calc andb]. destruct (fread o rd vbsn f) as [[data|] f1]; reflexivity.
Qed.
#[local] Opaque hash_outer hash_inner.
Lemma mo0 : mult_overflow 0 vbs = false. Proof. reflexivity. Qed.
Lemma up1 : up 1 = 1. Proof. reflexivity. Qed.
Lemma to1 : N.to_nat 1 = 1. Proof. reflexivity. Qed.
Lemma cov_root verify q calc f r c' f' : create_or_verify H salt o verify q None 1 calc f = (r, c', f') ->
  vf_disk f' = vf_disk f /\ vf_size f' = vf_size f /\ (r = V0 -> c' = H (salt ++ vblock (vf_disk f) q) /\ ((q + 1) * 4096 <= vf_size f)%N).
Proof.
  intros E. rewrite cov_unfold in E. cbv zeta in E. destruct (mult_overflow q vbs) eqn:M1; [injection E as <- <- <-; sp; auto; discriminate|].
  rewrite mo0 in E. cbn [orb] in E.
  destruct (vcall o f) as [ok f1] eqn:V1. apply vcall_spec in V1 as [D1 Z1]. destruct ok; cbn [negb] in E; [|injection E as <- <- <-; sp; auto; discriminate].
  rewrite (small_block _ M1) in E. rewrite up1, to1 in E. rewrite outer_nowr in E.
  destruct (fread o (q * 4096) vbsn f1) as [rd f2] eqn:R. apply fread_spec in R. destruct R as (D2 & Z2 & R).
  destruct rd as [data|].
  - destruct (R data eq_refl) as [DA SZ]. injection E as <- <- <-. cbn [l_calc]. rewrite VB in SZ. sp; [congruence|congruence|]. intros _. rewrite DA, D1. split; [reflexivity|]. rewrite <- Z1. lia.
  - injection E as <- <- <-. sp; [congruence|congruence|discriminate].
Qed.
Lemma cov_root_complete q calc f : no_errors o -> (q * 4096 < u64)%N -> ((q + 1) * 4096 <= vf_size f)%N ->
  exists f', create_or_verify H salt o true q None 1 calc f = (V0, H (salt ++ vblock (vf_disk f) q), f').
Proof.
  intros NE Q SZ. rewrite cov_unfold. cbv zeta. assert (M1 : mult_overflow q vbs = false) by (apply mult_overflow_iff; [reflexivity|exact Q]). rewrite M1.
  rewrite mo0. cbn [orb]. unfold vcall. rewrite NE. cbn [negb]. rewrite (small_block _ M1). rewrite up1, to1. rewrite outer_nowr.
  destruct (fread_ok (q * 4096) vbsn (mkVf (S (vf_k f)) (vf_size f) (vf_disk f)) NE) as [f2 R]; [rewrite VB; cbn [vf_size]; lia|]. rewrite R. cbn [l_calc]. eauto.
Qed.
End WithH.
