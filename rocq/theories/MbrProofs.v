From Verif Require Import Base Disk DiskLemmas ExactIO ExactIOSpec ExactIOProofs BootRegion BootRegionSpec BootRegionProofs.

(** ** MBR bytes *)
Lemma nth_skipn' {A} (x : A) n : forall l i, nth i (skipn n l) x = nth (n + i) l x.
Proof. induction n; intros [|a l] i; cbn; auto. now destruct i. Qed.
Lemma splice_length l i new : i + List.length new <= List.length l -> List.length (splice l i new) = List.length l.
Proof. intros H. unfold splice. rewrite !app_length, firstn_length, skipn_length. lia. Qed.
Lemma splice_nth l i new j : i + List.length new <= List.length l ->
  nth j (splice l i new) 0%N = if (Nat.leb i j) && (Nat.ltb j (i + List.length new)) then nth (j - i) new 0%N else nth j l 0%N.
Proof.
  intros H. unfold splice. destruct (Nat.leb_spec i j) as [A|A]; cbn [andb].
  - rewrite app_nth2 by (rewrite firstn_length; lia). rewrite firstn_length. replace (Nat.min i (List.length l)) with i by lia.
    destruct (Nat.ltb_spec j (i + List.length new)).
    + now rewrite app_nth1 by lia.
    + rewrite app_nth2 by lia. rewrite nth_skipn'. f_equal. lia.
  - rewrite app_nth1 by (rewrite firstn_length; lia).
    transitivity (nth j (firstn i l ++ skipn i l) 0%N); [|now rewrite firstn_skipn].
    now rewrite app_nth1 by (rewrite firstn_length; lia).
Qed.
Lemma get_chs_length old lba h s : List.length old = 3 -> List.length (get_chs old lba h s) = 3.
Proof. unfold get_chs. destruct ((h =? 0) || (s =? 0))%N; auto. Qed.
Lemma slice_length l i n : i + n <= List.length l -> List.length (slice l i n) = n.
Proof. intros H. unfold slice. rewrite firstn_length, skipn_length. lia. Qed.

Lemma le32_put n (l : list byte) i : (n < 2 ^ 32)%N -> (forall j, j < 4 -> nth (i + j) l 0%N = nth j (put_le32 n) 0%N) -> le32 l i = n.
Proof.
  intros B H. unfold le32. pose proof (H 0 ltac:(lia)) as H0. rewrite Nat.add_0_r in H0. rewrite H0, !H by lia. cbn [nth put_le32].
  change 65536%N with (256 * 256)%N. change 16777216%N with (256 * 256 * 256)%N.
  rewrite <- !N.div_div by lia.
  pose proof (N.div_mod n 256 ltac:(lia)). pose proof (N.div_mod (n / 256) 256 ltac:(lia)).
  pose proof (N.div_mod (n / 256 / 256) 256 ltac:(lia)).
  assert (S : (n / 256 / 256 / 256 < 256)%N).
  { rewrite !N.div_div by lia. apply N.div_lt_upper_bound; lia. }
  rewrite (N.mod_small (n / 256 / 256 / 256)) by exact S. lia.
Qed.

(** which of the four written ranges position j falls in *)
Definition pick {A} (j : nat) (a b c d e : A) : A :=
     if (Nat.leb 451 j) && (Nat.ltb j 454) then a else
     if (Nat.leb 447 j) && (Nat.ltb j 450) then b else
     if (Nat.leb 458 j) && (Nat.ltb j 462) then c else
     if (Nat.leb 454 j) && (Nat.ltb j 458) then d else e.
Lemma pick_start (f1 f2 f3 f4 : nat -> N) e j : j < 4 -> pick (454 + j) (f1 (454 + j - 451)) (f2 (454 + j - 447)) (f3 (454 + j - 458)) (f4 (454 + j - 454)) e = f4 j.
Proof. intros H. destruct j as [|[|[|[|]]]]; try lia; reflexivity. Qed.
Lemma pick_size (f1 f2 f3 f4 : nat -> N) e j : j < 4 -> pick (458 + j) (f1 (458 + j - 451)) (f2 (458 + j - 447)) (f3 (458 + j - 458)) (f4 (458 + j - 454)) e = f3 j.
Proof. intros H. destruct j as [|[|[|[|]]]]; try lia; reflexivity. Qed.
Lemma pick_other {A} (a b c d e : A) j : ~ (447 <= j < 450 \/ 451 <= j < 462) -> pick j a b c d e = e.
Proof.
  intros H. unfold pick.
  destruct (Nat.leb_spec 451 j), (Nat.ltb_spec j 454); cbn [andb]; try lia;
  destruct (Nat.leb_spec 447 j), (Nat.ltb_spec j 450); cbn [andb]; try lia;
  destruct (Nat.leb_spec 458 j), (Nat.ltb_spec j 462); cbn [andb]; try lia;
  destruct (Nat.leb_spec 454 j), (Nat.ltb_spec j 458); cbn [andb]; try lia; reflexivity.
Qed.

Lemma new_mbr_spec ss hd sc m bp m' : List.length m = 512 -> new_mbr ss hd sc m bp = Some m' ->
  List.length m' = 512 /\ (bp_start bp mod ss = 0)%N /\ (bp_size bp mod ss = 0)%N /\
  entry_start m' 0 = ((bp_start bp / ss) mod 2 ^ 32)%N /\ entry_size m' 0 = ((bp_size bp / ss) mod 2 ^ 32)%N /\
  (forall j, ~ (447 <= j < 450 \/ 451 <= j < 462) -> nth j m' 0%N = nth j m 0%N).
Proof.
  intros L H. unfold new_mbr in H.
  destruct (N.eqb_spec (bp_start bp mod ss) 0); cbn [negb orb] in H; [|discriminate].
  destruct (N.eqb_spec (bp_size bp mod ss) 0); cbn [negb orb] in H; [|discriminate].
  unfold entry_off in H. change (446 + 16 * 0) with 446 in H. change (446 + 8) with 454 in H. change (446 + 12) with 458 in H.
  change (446 + 1) with 447 in H. change (446 + 5) with 451 in H.
  set (st := ((bp_start bp / ss) mod 2 ^ 32)%N) in *. set (sz := ((bp_size bp / ss) mod 2 ^ 32)%N) in *.
  set (m1 := splice m 454 (put_le32 st)) in *.
  set (m2 := splice m1 458 (put_le32 sz)) in *.
  set (c1 := get_chs (slice m2 447 3) st hd sc) in *. set (m3 := splice m2 447 c1) in *.
  set (c2 := get_chs (slice m3 451 3) ((st + sz + 2 ^ 32 - 1) mod 2 ^ 32) hd sc) in *.
  injection H as <-.
  assert (B1 : (st < 2 ^ 32)%N) by (apply N.mod_lt; discriminate). assert (B2 : (sz < 2 ^ 32)%N) by (apply N.mod_lt; discriminate).
  clearbody st sz.
  assert (P4 : forall n, List.length (put_le32 n) = 4) by reflexivity.
  assert (L1 : List.length m1 = 512) by (unfold m1; rewrite splice_length; rewrite ?P4; [exact L|clear - L; lia]).
  assert (L2 : List.length m2 = 512) by (unfold m2; rewrite splice_length; rewrite ?P4; [exact L1|clear - L1; lia]).
  assert (C1 : List.length c1 = 3) by (apply get_chs_length, slice_length; clear - L2; lia).
  assert (L3 : List.length m3 = 512) by (unfold m3; rewrite splice_length; rewrite ?C1; [exact L2|clear - L2; lia]).
  assert (C2 : List.length c2 = 3) by (apply get_chs_length, slice_length; clear - L3; lia).
  assert (L4 : List.length (splice m3 451 c2) = 512) by (rewrite splice_length; rewrite ?C2; [exact L3|clear - L3; lia]).
  assert (NT : forall j, nth j (splice m3 451 c2) 0%N =
     pick j ((fun i => nth i c2 0%N) (j - 451)) ((fun i => nth i c1 0%N) (j - 447)) ((fun i => nth i (put_le32 sz) 0%N) (j - 458))
       ((fun i => nth i (put_le32 st) 0%N) (j - 454)) (nth j m 0%N)).
  { intros j. unfold pick. rewrite splice_nth by (rewrite C2; clear - L3; lia). rewrite C2. change (451 + 3) with 454.
    destruct ((Nat.leb 451 j) && (Nat.ltb j 454)); [reflexivity|].
    unfold m3. rewrite splice_nth by (rewrite C1; clear - L2; lia). rewrite C1. change (447 + 3) with 450.
    destruct ((Nat.leb 447 j) && (Nat.ltb j 450)); [reflexivity|].
    unfold m2. rewrite splice_nth by (rewrite P4; clear - L1; lia). rewrite P4. change (458 + 4) with 462.
    destruct ((Nat.leb 458 j) && (Nat.ltb j 462)); [reflexivity|].
    unfold m1. rewrite splice_nth by (rewrite P4; clear - L; lia). rewrite P4. reflexivity. }
  sp; auto.
  - unfold entry_start. change (entry_off 0 + 8) with 454. apply le32_put; [exact B1|]. intros j Hj. rewrite NT. apply (pick_start (fun i => nth i c2 0%N) (fun i => nth i c1 0%N) (fun i => nth i (put_le32 sz) 0%N) (fun i => nth i (put_le32 st) 0%N)), Hj.
  - unfold entry_size. change (entry_off 0 + 12) with 458. apply le32_put; [exact B2|]. intros j Hj. rewrite NT. apply (pick_size (fun i => nth i c2 0%N) (fun i => nth i c1 0%N) (fun i => nth i (put_le32 sz) 0%N) (fun i => nth i (put_le32 st) 0%N)), Hj.
  - intros j Hj. rewrite NT. apply pick_other, Hj.
Qed.

Lemma read_mbr_spec o dsz st r st' : read_mbr o dsz st = (r, st') ->
  io_disk st' = io_disk st /\ io_trace st' = io_trace st /\ (forall m, r = Done m -> m = mbr_of (io_disk st) /\ (512 <= dsz)%N).
Proof.
  unfold read_mbr, sys_pread. destruct (o (io_k st)) as [| |c]; intros H.
  - injection H as <- <-. sp; auto. discriminate.
  - injection H as <- <-. sp; auto. discriminate.
  - destruct (N.leb_spec dsz 0).
    + cbn [lenN List.length andb N.of_nat N.eqb] in H. injection H as <- <-. sp; auto. discriminate.
    + set (n := N.min (N.max 1 c) (N.min 512 (dsz - 0))) in *. rewrite dread_lenN in H.
      destruct (N.eqb_spec (N.of_nat (N.to_nat n)) 512); cbn [andb] in H.
      * match goal with H : (if ?b then _ else _) = _ |- _ => destruct b end; injection H as <- <-; sp; auto; try discriminate.
        intros m E. injection E as <-. split; [|lia]. unfold mbr_of. f_equal. lia.
      * injection H as <- <-. sp; auto. discriminate.
Qed.

Lemma raw_shape_plain at1 pos size img rest0 tr done : raw_shape at1 pos size img [] rest0 tr done ->
  tr_in pos (pos + size) tr /\
  (done = true -> exists body, tr = body ++ [ESync] /\ consecutive pos body (firstn (N.to_nat size) img) /\ (size = 0 \/ lenN img = size)%N).
Proof.
  intros (body & l & tl & -> & C & _ & L & H). rewrite lenN_nil, N.add_0_r in C.
  assert (TB : tr_in pos (pos + size) body) by (eapply consecutive_in; [exact C|lia]).
  destruct H as [(-> & ->)|(F & S & [(_ & -> & ->)|(ht & m & fin & N0 & _)])].
  - rewrite app_nil_r. split; [exact TB|discriminate].
  - split; [apply tr_in_app; split; [exact TB|apply tr_in_sync]|]. intros _. exists body. cbn in F. rewrite F. auto.
  - contradiction.
Qed.

Lemma write_part_spec fuel o dsz ss img size bp hl st r st' : write_part fuel o dsz ss img size bp hl st = (r, st') ->
  exists tr, io_trace st' = io_trace st ++ tr /\ (forall p, io_disk st' p = play (io_disk st) tr p) /\
    exists done, raw_shape (one_write o dsz (bp_start bp) hl) (bp_start bp) size img (firstn (N.to_nat hl) img) (skipn (N.to_nat hl) img) tr done /\
    (r = Done tt -> done = true).
Proof.
  intros H. unfold write_part in H. destruct (sys_ok o st) as [ok st1] eqn:E. apply sys_ok_spec in E as [D1 T1].
  assert (N0 : forall rr : out unit, rr <> Done tt -> (rr, st1) = (r, st') -> exists tr, io_trace st' = io_trace st ++ tr /\ (forall p, io_disk st' p = play (io_disk st) tr p) /\
    exists done, raw_shape (one_write o dsz (bp_start bp) hl) (bp_start bp) size img (firstn (N.to_nat hl) img) (skipn (N.to_nat hl) img) tr done /\ (r = Done tt -> done = true)).
  { intros rr ND X. injection X as <- <-. exists []. rewrite app_nil_r. sp; auto; [intros; now rewrite D1|]. exists false. split; [|contradiction].
    exists [], [], []. rewrite lenN_nil. sp; auto; try lia; [constructor|eexists; reflexivity]. }
  destruct ok; cbn [negb] in H; [|eapply N0; [|exact H]; discriminate].
  destruct (lseek_ok dsz (bp_start bp)); cbn [negb] in H; [|eapply N0; [|exact H]; discriminate].
  destruct (copy_raw_image fuel o dsz ss img size hl (bp_start bp) st1) as [cr st2] eqn:C. apply copy_raw_spec in C.
  destruct C as (tr & T & D & done & SH & DN). rewrite T1 in T. rewrite D1 in D.
  destruct cr as [[]| |].
  - specialize (DN eq_refl). subst done. destruct (sys_ok o st2) as [ok st3] eqn:E3. apply sys_ok_spec in E3 as [D3 T3].
    exists tr. destruct ok; injection H as <- <-; rewrite T3, D3; sp; auto; exists true; auto.
  - injection H as <- <-. exists tr. sp; auto. exists done. split; [exact SH|discriminate].
  - injection H as <- <-. exists tr. sp; auto. exists done. split; [exact SH|discriminate].
Qed.

Lemma mbr_set_spec o dsz ss hd sc bp st r st' : mbr_set_boot o dsz ss hd sc bp st = (r, st') ->
  (io_trace st' = io_trace st /\ io_disk st' = io_disk st /\ r <> Done tt) \/
  (~ whole_sectors o /\ r <> Done tt) \/
  exists m', new_mbr ss hd sc (mbr_of (io_disk st)) bp = Some m' /\ io_trace st' = io_trace st ++ [EW 0 m'] /\
    io_disk st' = dwrite (io_disk st) 0 m'.
Proof.
  intros H. unfold mbr_set_boot in H. destruct (sys_ok o st) as [ok st0] eqn:E. apply sys_ok_spec in E as [D0 T0].
  destruct ok; cbn [negb] in H; [|injection H as <- <-; left; sp; auto; discriminate].
  destruct (read_mbr o dsz st0) as [rm st1] eqn:E1. apply read_mbr_spec in E1 as (D1 & T1 & R1). rewrite T0 in T1. rewrite D0 in *.
  destruct rm as [m| |]; [|injection H as <- <-; left; sp; auto; discriminate|injection H as <- <-; left; sp; auto; discriminate].
  destruct (R1 m eq_refl) as [-> SZ].
  destruct (new_mbr ss hd sc (mbr_of (io_disk st)) bp) as [m'|] eqn:NM; [|injection H as <- <-; left; sp; auto; discriminate].
  assert (L : lenN m' = 512%N).
  { apply new_mbr_spec in NM; [|apply dread_length]. destruct NM as (L & _). unfold lenN. now rewrite L. }
  unfold sys_pwrite in H. destruct (o (io_k st1)) as [| |c] eqn:O.
  - injection H as <- <-. left. sp; auto; discriminate.
  - injection H as <- <-. left. sp; auto; discriminate.
  - destruct (N.leb_spec dsz 0); [lia|]. rewrite L in H.
    destruct (N.ltb_spec c 512) as [SHORT|WS].
    { right. left. split; [intros WS; apply WS in O; lia|]. destruct (N.eqb_spec (N.min c (N.min 512 (dsz - 0))) 512); [lia|].
      injection H as <- <-. discriminate. }
    replace (N.min c (N.min 512 (dsz - 0))) with 512%N in H by lia.
    replace (firstn (N.to_nat 512) m') with m' in H by (symmetry; apply firstn_all2; unfold lenN in L; lia).
    cbn [N.eqb Pos.eqb] in H. injection H as <- <-. right. right. exists m'. cbn. rewrite T1, D1. auto.
Qed.

Lemma mbr_ext d d' : (forall p, (p < 512)%N -> d p = d' p) -> mbr_of d = mbr_of d'.
Proof. intros H. apply dread_ext. intros p Hp. apply H. lia. Qed.
Lemma mbr_write d m : List.length m = 512 -> mbr_of (dwrite d 0 m) = m.
Proof. intros L. unfold mbr_of. rewrite <- L. apply dread_dwrite_same. Qed.

Lemma half_arith ss rz : (0 < ss)%N -> (rz mod (2 * ss) = 0)%N -> (rz / 2 * 2 = rz /\ (rz / 2) mod ss = 0)%N.
Proof.
  intros P H. apply N.mod_divide in H; [|lia]. destruct H as [q ->].
  replace (q * (2 * ss))%N with (q * ss * 2)%N by lia. rewrite N.div_mul by lia. split; [reflexivity|]. apply N.mod_mul. lia.
Qed.

Lemma div_exact x s : (s <> 0 -> x mod s = 0 -> x / s * s = x)%N.
Proof. intros Z H. pose proof (N.div_mod x s Z) as E. rewrite H, N.add_0_r in E. rewrite N.mul_comm. symmetry. exact E. Qed.
Lemma le32_bound (l : list byte) k : (forall j, (nth j l 0 < 256)%N) -> (le32 l k < 2 ^ 32)%N.
Proof. intros B. unfold le32. pose proof (B k). pose proof (B (k+1)). pose proof (B (k+2)). pose proof (B (k+3)). lia. Qed.
Lemma mbr_byte d j : (forall p, (d p < 256)%N) -> (nth j (mbr_of d) 0 < 256)%N.
Proof.
  intros B. destruct (le_lt_dec 512 j) as [L|L].
  - rewrite nth_overflow; [lia|]. unfold mbr_of. now rewrite dread_length.
  - unfold mbr_of. rewrite dread_nth by exact L. apply B.
Qed.

Lemma c22_mbr_ok : forall fuel o dsz ss hd sc rs rz img size d0 r st',
  (forall p, d0 p < 256)%N -> (512 <= ss <= 65536)%N -> (rs + rz <= 2 ^ 32 * ss)%N -> (rz / 2 < 2 ^ 32)%N ->
  mbr_handler fuel o dsz ss hd sc rs rz img size (mkIo 0 d0 []) = (r, st') ->
  (io_trace st' = [] /\ r <> Done tt) \/
  exists h, let half := (rz / 2)%N in
    (* h is the half that is not booted *)
    (boot_start ss d0 = rs /\ h = rs + half \/ boot_start ss d0 = rs + half /\ h = rs)%N /\
    (* the region is not used by another partition *)
    (forall i x, In i [1; 2; 3] -> (entry_start (mbr_of d0) i * ss <= x < (entry_start (mbr_of d0) i + entry_size (mbr_of d0) i) * ss)%N ->
       ~ (rs <= x < rs + rz)%N) /\
    (* at every crash point, if the disk writes at least whole blocks of 512 bytes *)
    (whole_sectors o -> forall d', crash ss d0 (io_trace st') d' ->
       (forall p, (512 <= p)%N -> ~ (h <= p < h + half)%N -> d' p = d0 p) /\
       (mbr_of d' = mbr_of d0 \/
        boot_start ss d' = h /\ boot_size ss d' = half /\
        (forall j, ~ (447 <= j < 450 \/ 451 <= j < 462) -> nth j (mbr_of d') 0%N = nth j (mbr_of d0) 0%N) /\
        dread d' h (List.length (firstn (N.to_nat size) img)) = firstn (N.to_nat size) img /\ (size = 0 \/ lenN img = size)%N)) /\
    (* after success *)
    (r = Done tt ->
       boot_start ss (io_disk st') = h /\ boot_size ss (io_disk st') = half /\
       dread (io_disk st') h (List.length (firstn (N.to_nat size) img)) = firstn (N.to_nat size) img /\ (size = 0 \/ lenN img = size)%N /\
       (forall p, (h + size <= p < h + half)%N -> io_disk st' p = 0%N)).
Proof.
  intros fuel o dsz ss hd sc rs rz img size d0 r st' BY SS NO HB H. unfold mbr_handler in H.
  set (s0 := mkIo 0 d0 []) in *. unfold mbr_get_inactive in H.
  destruct (validate_region dsz ss rs rz) eqn:V; cbn [negb] in H; [|injection H as <- <-; left; split; [reflexivity|discriminate]].
  unfold validate_region in V. rewrite !andb_true_iff, !negb_true_iff, orb_false_iff in V.
  destruct V as ((((V1 & V2) & V3) & V4) & V5). destruct V1 as [V1 V1'].
  apply N.ltb_ge in V1. apply N.eqb_neq in V1'. apply N.eqb_eq in V2. apply N.eqb_eq in V3. apply N.leb_gt in V5.
  assert (SSZ : ss <> 0%N) by (clear - SS; lia).
  destruct (half_arith ss rz ltac:(clear - SS; lia) V3) as [HH HM]. set (half := (rz / 2)%N) in *.
  assert (WW : (2 ^ 32 * ss < 2 ^ 64)%N) by (change (2 ^ 64)%N with (2 ^ 32 * 2 ^ 32)%N; apply N.mul_lt_mono_pos_l; lia).
  assert (W1 : w64 (rs + rz) = (rs + rz)%N) by (unfold w64; apply N.mod_small; lia). rewrite W1 in V5.
  assert (W2 : w64 (rs + half) = (rs + half)%N) by (unfold w64; apply N.mod_small; lia). rewrite W2 in H.
  destruct (read_mbr o dsz s0) as [rm st1] eqn:E1. apply read_mbr_spec in E1 as (D1 & T1 & R1). cbn [s0 io_disk io_trace] in D1, T1.
  destruct rm as [m| |]; [|injection H as <- <-; left; split; [exact T1|discriminate]|injection H as <- <-; left; split; [exact T1|discriminate]].
  destruct (R1 m eq_refl) as [Em _]. cbn [s0 io_disk] in Em.
  destruct (is_region_free ss rs rz m) eqn:FREE; cbn [negb] in H; [|injection H as <- <-; left; split; [exact T1|discriminate]].
  destruct (N.eqb_spec (entry_start m 0) 0) as [|NZ]; [injection H as <- <-; left; split; [exact T1|discriminate]|].
  assert (DRS : (rs / ss * ss = rs)%N) by (apply div_exact; assumption).
  assert (DH : (half / ss * ss = half)%N) by (apply div_exact; assumption).
  assert (MRH : ((rs + half) mod ss = 0)%N) by (rewrite <- DRS, <- DH, <- N.mul_add_distr_r; apply N.mod_mul; assumption).
  assert (DRH : ((rs + half) / ss * ss = rs + half)%N) by (apply div_exact; assumption).
  clearbody half. clear V3 HM.
  (* which half *)
  set (bpo := if (rs / ss =? entry_start m 0)%N then Some (mkBpart (rs + half) half)
              else if ((rs + half) / ss =? entry_start m 0)%N then Some (mkBpart rs half) else None).
  assert (BP : match bpo with
     | None => (Failed, st1) = (r, st')
     | Some bp => (if (bp_size bp <? size)%N then (Failed, st1)
      else
        let '(ok, st2) := sys_ok o st1 in
        if negb ok then (Failed, st2)
        else match clear_part fuel o dsz bp st2 with
             | (Done _, st3) =>
                 match write_part fuel o dsz ss img size bp 0 st3 with
                 | (Done _, st4) =>
                     let '(ok, st5) := sys_ok o st4 in
                     if negb ok then (Failed, st5) else mbr_set_boot o dsz ss hd sc bp st5
                 | (r, st4) => (r, st4)
                 end
             | (r, st3) => (r, st3)
             end) = (r, st') end).
  { unfold bpo. destruct (rs / ss =? entry_start m 0)%N; [exact H|]. destruct ((rs + half) / ss =? entry_start m 0)%N; exact H. }
  destruct bpo as [bp|] eqn:EB; [|injection BP as <- <-; left; split; [exact T1|discriminate]].
  assert (HP : bp_size bp = half /\ (boot_start ss d0 = rs /\ bp_start bp = rs + half \/ boot_start ss d0 = rs + half /\ bp_start bp = rs)%N).
  { unfold bpo in EB. unfold boot_start. rewrite <- Em.
    destruct (N.eqb_spec (rs / ss) (entry_start m 0)) as [Q|Q].
    - injection EB as <-. split; [reflexivity|]. left. cbn. rewrite <- Q. auto.
    - destruct (N.eqb_spec ((rs + half) / ss) (entry_start m 0)) as [Q2|Q2]; [|discriminate].
      injection EB as <-. split; [reflexivity|]. right. cbn. rewrite <- Q2. auto. }
  clear EB bpo H. destruct HP as [HS HP]. set (h := bp_start bp) in *.
  assert (HR : (rs <= h /\ h + half <= rs + rz)%N) by lia.
  assert (HALF0 : (0 < half)%N) by (clear - HH V1'; lia). assert (RS0 : (0 < rs)%N) by (clear - V1; lia).
  assert (HMS : (h mod ss = 0)%N) by (destruct HP as [[_ ->]|[_ ->]]; assumption).
  rename BP into H.
  destruct (N.ltb_spec (bp_size bp) size) as [|FIT]; [injection H as <- <-; left; split; [exact T1|discriminate]|].
  destruct (sys_ok o st1) as [ok2 st2] eqn:E2. apply sys_ok_spec in E2 as [D2 T2]. rewrite T1 in T2. rewrite D1 in D2.
  destruct ok2; cbn [negb] in H; [|injection H as <- <-; left; split; [exact T2|discriminate]].
  right. exists h. cbv zeta.
  (* region free *)
  assert (RF : forall i x, In i [1; 2; 3] -> (entry_start (mbr_of d0) i * ss <= x < (entry_start (mbr_of d0) i + entry_size (mbr_of d0) i) * ss)%N ->
       ~ (rs <= x < rs + rz)%N).
  { intros i x Hi Hx Hr. unfold is_region_free in FREE. apply negb_true_iff in FREE.
    assert (X : entry_overlaps ss rs rz m i = false).
    { destruct (entry_overlaps ss rs rz m i) eqn:Q; [|reflexivity]. rewrite <- FREE. symmetry. apply existsb_exists. exists i. auto. }
    rewrite <- Em in Hx. unfold entry_overlaps in X. set (es := entry_start m i) in *. set (ez := entry_size m i) in *.
    destruct (N.eqb_spec ez 0) as [Z|Z]; [rewrite Z in Hx; lia|].
    rewrite N.mul_add_distr_r in Hx.
    destruct (N.leb_spec (ez * ss + es * ss) (2 ^ 64 - 1)) as [SM|BG].
    - assert (PE : w64 (ez * ss + es * ss + 2 ^ 64 - 1) = (ez * ss + es * ss - 1)%N).
      { unfold w64. replace (ez * ss + es * ss + 2 ^ 64 - 1)%N with ((ez * ss + es * ss - 1) + 1 * 2 ^ 64)%N by lia.
        rewrite N.mod_add by lia. apply N.mod_small. lia. }
      assert (RE : w64 (rs + rz + 2 ^ 64 - 1) = (rs + rz - 1)%N).
      { unfold w64. replace (rs + rz + 2 ^ 64 - 1)%N with ((rs + rz - 1) + 1 * 2 ^ 64)%N by lia.
        rewrite N.mod_add by lia. apply N.mod_small. lia. }
      rewrite PE, RE in X. apply orb_false_iff in X as [X1 X2]. apply andb_false_iff in X1, X2.
      rewrite !N.leb_gt in X1, X2. lia.
    - exfalso. assert (B2 : (es < 2 ^ 32 /\ ez < 2 ^ 32)%N).
      { unfold es, ez, entry_start, entry_size. split; apply le32_bound; intros j; rewrite Em; apply mbr_byte; exact BY. }
      assert (P1 : (ez * ss <= 2 ^ 32 * 65536)%N) by (apply N.mul_le_mono; [apply N.lt_le_incl|]; apply B2 || apply SS).
      assert (P2 : (es * ss <= 2 ^ 32 * 65536)%N) by (apply N.mul_le_mono; [apply N.lt_le_incl|]; apply B2 || apply SS).
      clear - P1 P2 BG. lia. }
  assert (NOMBR : forall tr, tr_in h (h + half) tr -> forall d', crash ss d0 tr d' -> (forall p, (512 <= p)%N -> ~ (h <= p < h + half)%N -> d' p = d0 p) /\ mbr_of d' = mbr_of d0).
  { intros tr TI d' C. pose proof (crash_in _ _ _ _ _ _ TI C) as SO. split; [intros; now apply SO|]. apply mbr_ext. intros p Hp. apply SO. lia. }
  destruct (clear_part fuel o dsz bp st2) as [r3 st3] eqn:E3. apply clear_part_spec in E3; [|rewrite HS; exact HB].
  destruct E3 as (n & tr1 & Nn & T3 & C3 & D3 & R3). rewrite T2 in T3. rewrite D2 in D3. rewrite HS in Nn, R3. cbn [app] in T3.
  assert (I1 : tr_in h (h + half) tr1) by (eapply consecutive_in; [exact C3|rewrite lenN_repeat; lia]).
  split; [exact HP|]. split; [exact RF|].
  destruct r3 as [[]| |].
  2:{ injection H as <- <-. split; [|discriminate]. intros _ d' C. rewrite T3 in C. destruct (NOMBR _ I1 _ C). auto. }
  2:{ injection H as <- <-. split; [|discriminate]. intros _ d' C. rewrite T3 in C. destruct (NOMBR _ I1 _ C). auto. }
  rewrite (R3 eq_refl) in C3. clear R3 Nn n.
  destruct (write_part fuel o dsz ss img size bp 0 st3) as [r4 st4] eqn:E4. apply write_part_spec in E4.
  destruct E4 as (tr2 & T4 & D4 & done & SH & R4). cbn [N.to_nat firstn skipn] in SH. apply raw_shape_plain in SH. fold h in SH. destruct SH as [I2 SH].
  rewrite T3 in T4.
  assert (I12 : tr_in h (h + half) (tr1 ++ tr2)).
  { apply tr_in_app. split; [exact I1|]. eapply tr_in_weaken; [| |exact I2]; lia. }
  assert (D4' : forall p, io_disk st4 p = play d0 (tr1 ++ tr2) p).
  { intros p. rewrite D4, play_app. apply play_ext, D3. }
  destruct r4 as [[]| |].
  2:{ injection H as <- <-. split; [|discriminate]. intros _ d' C. rewrite T4 in C. destruct (NOMBR _ I12 _ C). auto. }
  2:{ injection H as <- <-. split; [|discriminate]. intros _ d' C. rewrite T4 in C. destruct (NOMBR _ I12 _ C). auto. }
  destruct (SH (R4 eq_refl)) as (body & -> & CB & FS). clear SH R4.
  destruct (sys_ok o st4) as [ok5 st5] eqn:E5. apply sys_ok_spec in E5 as [D5 T5]. rewrite T4 in T5.
  destruct ok5; cbn [negb] in H.
  2:{ injection H as <- <-. split; [|discriminate]. intros _ d' C. rewrite T5 in C. destruct (NOMBR _ I12 _ C). auto. }
  apply mbr_set_spec in H. rewrite T5 in H.
  destruct H as [(TT & DD & ND)|[(NW & ND)|(m' & NM & TT & DD)]].
  { split; [|contradiction]. intros _ d' C. rewrite TT in C. destruct (NOMBR _ I12 _ C). auto. }
  { split; [|contradiction]. intros WS. contradiction. }
  assert (M5 : mbr_of (io_disk st5) = mbr_of d0).
  { apply mbr_ext. intros p Hp. rewrite D5, D4'. eapply tr_in_play; [exact I12|]. lia. }
  rewrite M5 in NM. apply new_mbr_spec in NM; [|apply dread_length]. destruct NM as (LM & _ & _ & NS & NZ' & NO').
  rewrite HS in NZ'. fold h in NS.
  assert (DIVH : (h / ss * ss = h)%N) by (apply div_exact; assumption).
  assert (NS' : entry_start m' 0 = (h / ss)%N).
  { rewrite NS. apply N.mod_small. apply N.div_lt_upper_bound; [exact SSZ|]. rewrite (N.mul_comm ss). eapply N.lt_le_trans; [|exact NO]. clear - HR HALF0. lia. }
  assert (NZ2 : entry_size m' 0 = (half / ss)%N).
  { rewrite NZ'. apply N.mod_small. apply N.div_lt_upper_bound; [exact SSZ|]. rewrite (N.mul_comm ss). eapply N.lt_le_trans; [|exact NO]. clear - HR RS0. lia. }
  assert (H5 : (512 <= h)%N) by (clear - HR V1; lia). clear NS NZ' NO HB WW BY HP RF V1 V1' V5 W1 W2 HR DRS DRH MRH.
  assert (NEW : forall d', (forall p, (512 <= p)%N -> d' p = play d0 (tr1 ++ body) p) -> mbr_of d' = m' ->
    boot_start ss d' = h /\ boot_size ss d' = half /\
    (forall j, ~ (447 <= j < 450 \/ 451 <= j < 462) -> nth j (mbr_of d') 0%N = nth j (mbr_of d0) 0%N) /\
    dread d' h (List.length (firstn (N.to_nat size) img)) = firstn (N.to_nat size) img /\ (size = 0 \/ lenN img = size)%N /\
    (forall p, (h + size <= p < h + half)%N -> d' p = 0%N)).
  { intros d' X M. unfold boot_start, boot_size. rewrite M, NS', NZ2, DIVH, DH.
    assert (PB : forall p, play d0 (tr1 ++ body) p = dwrite (dwrite d0 h (repeat 0%N (N.to_nat half))) h (firstn (N.to_nat size) img) p).
    { intros p. rewrite play_app, (consecutive_play _ _ _ CB). apply dwrite_ext. apply (consecutive_play _ _ _ C3). }
    sp; auto.
    - rewrite <- (dread_dwrite_same (dwrite d0 h (repeat 0%N (N.to_nat half))) h (firstn (N.to_nat size) img)) at 2.
      apply dread_ext. intros p Hp. rewrite X by lia. apply PB.
    - intros p Hp. rewrite X, PB by lia. rewrite dwrite_out by (right; rewrite lenN_firstn; lia).
      rewrite dwrite_in by (rewrite lenN_repeat; lia). apply nth_repeat. }
  rewrite <- !app_assoc in TT. cbn [app] in TT.
  split.
  - intros _ d' C. rewrite TT in C. rewrite app_assoc in C. apply crash_sync in C as [C|C].
    + assert (I3 : tr_in h (h + half) (tr1 ++ body)).
      { rewrite !tr_in_app in I12. apply tr_in_app. tauto. }
      destruct (NOMBR _ I3 _ C). auto.
    + assert (HI : forall p, (512 <= p)%N -> d' p = play d0 (tr1 ++ body) p).
      { intros p Hp. destruct (crash_one _ _ _ _ _ C (p / ss)%N) as [Q|Q]; rewrite Q by reflexivity; [reflexivity|].
        apply dwrite_out. right. unfold lenN. rewrite LM. lia. }
      assert (IB : tr_in h (h + half) (tr1 ++ body)).
      { rewrite !tr_in_app in I12. apply tr_in_app. tauto. }
      split. { intros p P1 P2. rewrite HI by exact P1. now apply (tr_in_play _ _ _ IB). }
      destruct (crash_one _ _ _ _ _ C 0%N) as [Q|Q].
      * left. apply mbr_ext. intros p Hp. rewrite Q by (apply N.div_small; lia). apply (tr_in_play _ _ _ IB). lia.
      * right. assert (M : mbr_of d' = m').
        { rewrite <- (mbr_write (play d0 (tr1 ++ body)) m' LM). apply mbr_ext. intros p Hp. apply Q. apply N.div_small. lia. }
        destruct (NEW d' HI M) as (? & ? & ? & ? & ? & _). auto.
  - intros _. assert (HI : forall p, (512 <= p)%N -> io_disk st' p = play d0 (tr1 ++ body) p).
    { intros p Hp. rewrite DD. rewrite dwrite_out by (right; unfold lenN; rewrite LM; lia). rewrite D5, D4'.
      rewrite app_assoc, play_app. reflexivity. }
    assert (M : mbr_of (io_disk st') = m') by (rewrite DD; now apply mbr_write).
    destruct (NEW _ HI M) as (? & ? & _ & ? & ? & ?). auto.
Qed.
