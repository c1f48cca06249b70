From Verif Require Import Base Disk DiskLemmas ExactIO ExactIOSpec ExactIOProofs BootRegion BootRegionSpec BootRegionProofs MbrProofs Gpt GptSpec.

Lemma crash_at_in n lo hi ss d0 tr d' : tr_in lo hi tr -> crash_at n ss d0 tr d' -> same_outside lo hi d0 d'.
Proof. intros H (b & p & rest & E & _ & N & C). eapply crash_in; [exact H|]. exists b, p, rest. auto. Qed.

(** all events issued and the last one is an fsync: nothing is lost *)
Lemma crash_at_full n ss d0 A d' : crash_at n ss d0 (A ++ [ESync]) d' -> List.length (A ++ [ESync]) <= n ->
  forall x, d' x = play d0 A x.
Proof.
  intros (b & p & rest & E & L & NS & C) LE x. destruct (C (x / ss)%N) as [k Ck]. rewrite Ck by reflexivity.
  assert (R : rest = []).
  { apply (f_equal (@List.length _)) in E. rewrite app_assoc in E. rewrite (app_length (b ++ p) rest) in E. destruct rest; [reflexivity|cbn [List.length] in E; lia]. }
  subst rest. rewrite app_nil_r in E.
  destruct p as [|e p] using rev_ind.
  - rewrite app_nil_r in E. rewrite firstn_nil, app_nil_r, <- E, play_app. reflexivity.
  - exfalso. apply NS. rewrite app_assoc in E. apply app_inj_tail in E as [_ <-]. apply in_or_app. right. now left.
Qed.

Lemma g_ok_spec o g b g' : g_ok o g = (b, g') -> io_disk (g_io g') = io_disk (g_io g) /\ io_trace (g_io g') = io_trace (g_io g) /\
  g_tab g' = g_tab g /\ g_writes g' = g_writes g.
Proof. unfold g_ok. destruct (sys_ok o (g_io g)) as [x st] eqn:E. apply sys_ok_spec in E as [A B]. intros H. injection H as <- <-. auto. Qed.

Lemma write_label_spec o t g b g' : write_label o t g = (b, g') -> io_disk (g_io g') = io_disk (g_io g) /\ io_trace (g_io g') = io_trace (g_io g) /\
  ((g_tab g' = t /\ g_writes g' = g_writes g ++ [(List.length (io_trace (g_io g)), t)]) \/
   (b = false /\ g_tab g' = g_tab g /\ g_writes g' = g_writes g)).
Proof.
  unfold write_label. destruct (g_ok o g) as [ok g1] eqn:E1. apply g_ok_spec in E1 as (D1 & T1 & B1 & W1).
  destruct (g_ok o g1) as [hit g2] eqn:E2. apply g_ok_spec in E2 as (D2 & T2 & B2 & W2).
  destruct (ok || hit) eqn:E; intros H; injection H as <- <-; cbn.
  - split; [congruence|]. split; [congruence|]. left. split; [reflexivity|]. now rewrite W2, W1.
  - apply orb_false_iff in E as [-> ->]. split; [congruence|]. split; [congruence|]. right. sp; congruence.
Qed.

(** everything the table switch does: no data events; tables written are the old one or the
    new one *)
Lemma gpt_set_spec o ss chg bp g r g' : gpt_set_boot o ss chg bp g = (r, g') ->
  let t' := set_boot_entry (bp_start bp / ss) (bp_size bp / ss) (g_tab g) in
  io_disk (g_io g') = io_disk (g_io g) /\ io_trace (g_io g') = io_trace (g_io g) /\
  (exists w, g_writes g' = g_writes g ++ w /\
     forall k t, In (k, t) w -> k = List.length (io_trace (g_io g)) /\ (t = g_tab g \/ t = t' /\ gpt_boot (g_tab g) <> None)) /\
  (r = Done tt -> g_tab g' = t' /\ gpt_boot (g_tab g) <> None).
Proof.
  intros H. cbv zeta. unfold gpt_set_boot in H. set (L := List.length (io_trace (g_io g))).
  destruct (g_ok o g) as [ok1 g1] eqn:E1. apply g_ok_spec in E1 as (D1 & T1 & B1 & W1).
  destruct ok1; cbn [negb] in H.
  2:{ injection H as <- <-. sp; auto; [|discriminate]. exists []. rewrite app_nil_r. split; [exact W1|]. intros k t []. }
  destruct (g_ok o g1) as [ok2 g2] eqn:E2. apply g_ok_spec in E2 as (D2 & T2 & B2 & W2).
  rewrite D1 in D2; rewrite T1 in T2; rewrite B1 in B2; rewrite W1 in W2.
  destruct ok2; cbn [negb] in H.
  2:{ injection H as <- <-. sp; auto; [|discriminate]. exists []. rewrite app_nil_r. split; [exact W2|]. intros k t []. }
  destruct (if chg then write_label o (g_tab g2) g2 else (true, g2)) as [ok3 g3] eqn:E3.
  assert (X3 : io_disk (g_io g3) = io_disk (g_io g) /\ io_trace (g_io g3) = io_trace (g_io g) /\ g_tab g3 = g_tab g /\
    exists w, g_writes g3 = g_writes g ++ w /\ forall k t, In (k, t) w -> k = L /\ t = g_tab g).
  { destruct chg.
    - apply write_label_spec in E3 as (D3 & T3 & [[B3 W3]|(_ & B3 & W3)]).
      + rewrite D3, T3, B3, W3, D2, T2, B2, W2. sp; auto. eexists. split; [reflexivity|]. intros k t [X|[]]. injection X as <- <-. auto.
      + rewrite D3, T3, B3, W3, D2, T2, B2, W2. sp; auto. exists []. rewrite app_nil_r. split; [reflexivity|]. intros k t [].
    - injection E3 as _ <-. rewrite D2, T2, B2, W2. sp; auto. exists []. rewrite app_nil_r. split; [reflexivity|]. intros k t []. }
  destruct X3 as (D3 & T3 & B3 & w & W3 & Hw).
  assert (STOP : forall gg, io_disk (g_io gg) = io_disk (g_io g3) -> io_trace (g_io gg) = io_trace (g_io g3) -> g_writes gg = g_writes g3 -> (Failed, gg) = (r, g') ->
    io_disk (g_io g') = io_disk (g_io g) /\ io_trace (g_io g') = io_trace (g_io g) /\
    (exists w, g_writes g' = g_writes g ++ w /\
       forall k t, In (k, t) w -> k = L /\ (t = g_tab g \/ t = set_boot_entry (bp_start bp / ss) (bp_size bp / ss) (g_tab g) /\ gpt_boot (g_tab g) <> None)) /\
    (r = Done tt -> g_tab g' = set_boot_entry (bp_start bp / ss) (bp_size bp / ss) (g_tab g) /\ gpt_boot (g_tab g) <> None)).
  { intros gg D T W X. injection X as <- <-. rewrite D, T, W, D3, T3, W3. sp; auto; [|discriminate].
    exists w. split; [reflexivity|]. intros k t K. destruct (Hw k t K) as [-> ->]. auto. }
  destruct ok3; cbn [negb] in H; [|eapply STOP; [| | |exact H]; auto].
  destruct (g_ok o g3) as [ok4 g4] eqn:E4. apply g_ok_spec in E4 as (D4 & T4 & B4 & W4).
  destruct ok4; cbn [negb] in H; [|eapply STOP; [| | |exact H]; auto].
  rewrite B4, B3 in H. destruct (gpt_boot (g_tab g)) as [pa|] eqn:BT; [|eapply STOP; [| | |exact H]; auto].
  destruct (g_ok o g4) as [ok5 g5] eqn:E5. apply g_ok_spec in E5 as (D5 & T5 & B5 & W5).
  destruct ok5; cbn [negb] in H; [|eapply STOP; [| | |exact H]; congruence].
  destruct (write_label o _ g5) as [ok6 g6] eqn:E6. apply write_label_spec in E6 as (D6 & T6 & X6).
  assert (RES : (if negb ok6 then (Failed, g6) else (Done tt, g6)) = (r, g') -> g' = g6 /\ (r = Done tt -> ok6 = true)).
  { destruct ok6; cbn [negb]; intros X; injection X as <- <-; split; auto; discriminate. }
  apply RES in H as [-> RT]. rewrite D6, T6, D5, T5, D4, T4, D3, T3. sp; auto.
  - destruct X6 as [[B6 W6]|(_ & B6 & W6)]; rewrite W6, W5, W4, W3.
    + exists (w ++ [(List.length (io_trace (g_io g5)), set_boot_entry (bp_start bp / ss) (bp_size bp / ss) (g_tab g))]).
      split; [now rewrite app_assoc|]. intros k t K. apply in_app_or in K as [K|[K|[]]].
      * destruct (Hw k t K) as [-> ->]. auto.
      * injection K as <- <-. unfold L. rewrite T5, T4, T3. split; [reflexivity|]. right. split; [reflexivity|]. discriminate.
    + exists w. split; [reflexivity|]. intros k t K. destruct (Hw k t K) as [-> ->]. auto.
  - intros R. destruct X6 as [[B6 W6]|(F & _)]; [|rewrite (RT R) in F; discriminate]. split; [exact B6|discriminate].
Qed.

Lemma set_boot_entry_boot s z t p : gpt_boot t = Some p -> gpt_boot (set_boot_entry s z t) = Some (mkGpart 0 s (s + z - 1)%N).
Proof.
  unfold gpt_boot, set_boot_entry. induction t as [|a t IH]; [discriminate|]. cbn [map find].
  destruct (Nat.eqb_spec (gp_no a) 0) as [Z|Z]; cbn [find gp_no]; [reflexivity|].
  intros H. destruct (Nat.eqb_spec (gp_no a) 0); [contradiction|]. now apply IH.
Qed.
Lemma set_boot_entry_other s z t n : n <> 0 -> find (fun p => Nat.eqb (gp_no p) n) (set_boot_entry s z t) = find (fun p => Nat.eqb (gp_no p) n) t.
Proof.
  intros N. unfold set_boot_entry. induction t as [|a t IH]; [reflexivity|]. cbn [map find].
  destruct (Nat.eqb_spec (gp_no a) 0) as [Z|Z]; cbn [gp_no].
  - destruct (Nat.eqb_spec 0 n); [congruence|]. destruct (Nat.eqb_spec (gp_no a) n); [congruence|exact IH].
  - destruct (Nat.eqb_spec (gp_no a) n); [reflexivity|exact IH].
Qed.

Lemma c22_gpt_ok : forall fuel o dsz ss gr ns rs rz chg img size d0 t0 r g',
  (0 < ss)%N -> (gr mod ss = 0)%N -> (0 < gr)%N -> (rs + rz < 2 ^ 64)%N -> (rz / 2 < 2 ^ 32)%N ->
  gpt_handler fuel o dsz ss gr ns rs rz chg img size (mkGst (mkIo 0 d0 []) t0 []) = (r, g') ->
  (io_trace (g_io g') = [] /\ g_writes g' = [] /\ g_tab g' = t0 /\ r <> Done tt) \/
  exists h pa, let half := (rz / 2)%N in
    (* h is the half that is not booted *)
    gpt_boot t0 = Some pa /\
    (gp_start pa * ss = rs /\ h = rs + half \/ gp_start pa * ss = rs + half /\ h = rs)%N /\
    (* the region is not used by another partition *)
    (forall p x, In p t0 -> gp_no p <> 0 -> (gp_start p * ss <= x < (gp_end p + 1) * ss)%N -> ~ (rs <= x < rs + rz)%N) /\
    (* at every crash point *)
    (forall d' t', gpt_crash ss d0 t0 (io_trace (g_io g')) (g_writes g') d' t' ->
       same_outside h (h + half) d0 d' /\
       (forall n, n <> 0 -> find (fun p => Nat.eqb (gp_no p) n) t' = find (fun p => Nat.eqb (gp_no p) n) t0) /\
       (t' = t0 \/
        gpt_boot_is ss t' h half /\
        dread d' h (List.length (firstn (N.to_nat size) img)) = firstn (N.to_nat size) img /\ (size = 0 \/ lenN img = size)%N)) /\
    (* after success *)
    (r = Done tt ->
       gpt_boot_is ss (g_tab g') h half /\
       dread (io_disk (g_io g')) h (List.length (firstn (N.to_nat size) img)) = firstn (N.to_nat size) img /\ (size = 0 \/ lenN img = size)%N /\
       (forall p, (h + size <= p < h + half)%N -> io_disk (g_io g') p = 0%N)).
Proof.
  intros fuel o dsz ss gr ns rs rz chg img size d0 t0 r g' SP GM GP NO HB H.
  assert (SSZ : ss <> 0%N) by (clear - SP; lia).
  unfold gpt_handler in H. set (g0 := mkGst (mkIo 0 d0 []) t0 []) in *. unfold gpt_get_inactive in H.
  destruct (g_ok o g0) as [ok1 g1] eqn:E1. apply g_ok_spec in E1 as (D1 & T1 & B1 & W1). cbn in D1, T1, B1, W1.
  destruct ok1; cbn [negb] in H; [|injection H as <- <-; left; sp; auto; discriminate].
  destruct (g_ok o g1) as [ok2 g2] eqn:E2. apply g_ok_spec in E2 as (D2 & T2 & B2 & W2).
  rewrite D1 in D2; rewrite T1 in T2; rewrite B1 in B2; rewrite W1 in W2.
  destruct ok2; cbn [negb] in H; [|injection H as <- <-; left; sp; auto; discriminate].
  rewrite B2 in H.
  destruct (gpt_check_region ss gr ns rs rz t0) eqn:V; cbn [negb] in H; [|injection H as <- <-; left; sp; auto; discriminate].
  destruct (gpt_boot t0) as [pa|] eqn:PB; [|injection H as <- <-; left; sp; auto; discriminate].
  unfold gpt_check_region in V. rewrite !andb_true_iff, !negb_true_iff, orb_false_iff in V.
  destruct V as ((((((V1 & V2) & V3) & _) & _) & V6) & _). destruct V1 as [_ V1].
  apply N.eqb_neq in V1. apply N.eqb_eq in V2. apply N.eqb_eq in V3.
  assert (MS : forall x, (x mod gr = 0 -> x mod ss = 0)%N).
  { clear - GM GP SSZ. intros x Hx. apply N.mod_divide; [assumption|]. apply N.mod_divide in Hx; [|lia]. apply N.mod_divide in GM; [|assumption].
    eapply N.divide_trans; [exact GM|exact Hx]. }
  destruct (half_arith gr rz GP V3) as [HH HM]. set (half := (rz / 2)%N) in *.
  assert (MRS : (rs mod ss = 0)%N) by (apply MS, V2). assert (MH : (half mod ss = 0)%N) by (apply MS, HM).
  assert (DRS : (rs / ss * ss = rs)%N) by (apply div_exact; assumption).
  assert (DH : (half / ss * ss = half)%N) by (apply div_exact; assumption).
  assert (MRH : ((rs + half) mod ss = 0)%N) by (rewrite <- DRS, <- DH, <- N.mul_add_distr_r; apply N.mod_mul; assumption).
  assert (DRH : ((rs + half) / ss * ss = rs + half)%N) by (apply div_exact; assumption).
  assert (DRZ : (rz / ss * ss = rz)%N).
  { apply div_exact; [assumption|]. rewrite <- HH, <- DH, <- N.mul_assoc, (N.mul_comm ss 2), N.mul_assoc. apply N.mod_mul. assumption. }
  clearbody half. clear V3 HM MS V2 GM GP.
  assert (W64 : w64 (rs + half) = (rs + half)%N) by (unfold w64; apply N.mod_small; lia). rewrite W64 in H.
  (* which half *)
  set (bpo := if (rs / ss =? gp_start pa)%N then Some (mkBpart (rs + half) half)
              else if ((rs + half) / ss =? gp_start pa)%N then Some (mkBpart rs half) else None).
  assert (BP : match bpo with
     | None => (Failed, g2) = (r, g')
     | Some bp => (if (bp_size bp <? size)%N then (Failed, g2)
      else
        let '(ok, g2) := g_ok o g2 in
        if negb ok then (Failed, g2)
        else match g_lift (clear_part fuel o dsz bp) g2 with
             | (Done _, g3) =>
                 match g_lift (write_part fuel o dsz ss img size bp 0) g3 with
                 | (Done _, g4) =>
                     let '(ok, g5) := g_ok o g4 in
                     if negb ok then (Failed, g5) else gpt_set_boot o ss chg bp g5
                 | (r, g4) => (r, g4)
                 end
             | (r, g3) => (r, g3)
             end) = (r, g') end).
  { unfold bpo. destruct (rs / ss =? gp_start pa)%N; [exact H|]. destruct ((rs + half) / ss =? gp_start pa)%N; exact H. }
  destruct bpo as [bp|] eqn:EB; [|injection BP as <- <-; left; sp; auto; discriminate].
  assert (HP : bp_size bp = half /\ (gp_start pa * ss = rs /\ bp_start bp = rs + half \/ gp_start pa * ss = rs + half /\ bp_start bp = rs)%N).
  { unfold bpo in EB.
    destruct (N.eqb_spec (rs / ss) (gp_start pa)) as [Q|Q].
    - injection EB as <-. split; [reflexivity|]. left. cbn. rewrite <- Q. auto.
    - destruct (N.eqb_spec ((rs + half) / ss) (gp_start pa)) as [Q2|Q2]; [|discriminate].
      injection EB as <-. split; [reflexivity|]. right. cbn. rewrite <- Q2. auto. }
  clear EB bpo H. destruct HP as [HS HP]. set (h := bp_start bp) in *.
  assert (HMS : (h mod ss = 0)%N) by (destruct HP as [[_ ->]|[_ ->]]; assumption).
  rename BP into H.
  destruct (N.ltb_spec (bp_size bp) size) as [|FIT]; [injection H as <- <-; left; sp; auto; discriminate|]. rewrite HS in FIT.
  destruct (g_ok o g2) as [ok2' g2'] eqn:E2. apply g_ok_spec in E2 as (D2' & T2' & B2' & W2').
  rewrite D2 in D2'; rewrite T2 in T2'; rewrite B2 in B2'; rewrite W2 in W2'.
  destruct ok2'; cbn [negb] in H; [|injection H as <- <-; left; sp; auto; discriminate].
  right. exists h, pa. cbv zeta.
  (* region free *)
  assert (RF : forall p x, In p t0 -> gp_no p <> 0 -> (gp_start p * ss <= x < (gp_end p + 1) * ss)%N -> ~ (rs <= x < rs + rz)%N).
  { intros p x Hp Np Hx Hr.
    assert (X : gpt_overlaps ss rs rz p = false).
    { destruct (gpt_overlaps ss rs rz p) eqn:Q; [|reflexivity]. rewrite <- V6. symmetry. apply existsb_exists. exists p. auto. }
    unfold gpt_overlaps in X. destruct (Nat.eqb_spec (gp_no p) 0) as [|_]; [contradiction|]. cbn [negb andb] in X.
    apply andb_false_iff in X. rewrite !N.leb_gt in X. rewrite <- DRS in Hr. rewrite <- DRZ in Hr.
    set (a := (rs / ss)%N) in *. set (b := (rz / ss)%N) in *.
    rewrite <- N.mul_add_distr_r in Hr.
    assert (X1 : (a * ss < (gp_end p + 1) * ss)%N) by (clear - Hx Hr; lia).
    assert (X2 : (gp_start p * ss < (a + b) * ss)%N) by (clear - Hx Hr; lia).
    apply N.mul_lt_mono_pos_r in X1; [|exact SP]. apply N.mul_lt_mono_pos_r in X2; [|exact SP]. clear - X X1 X2. lia. }
  split; [reflexivity|]. split; [exact HP|]. split; [exact RF|].
  assert (NOTAB : forall tr tw, tr_in h (h + half) tr -> (forall k t, In (k, t) tw -> t = t0) -> forall d' t', gpt_crash ss d0 t0 tr tw d' t' ->
     same_outside h (h + half) d0 d' /\
     (forall n, n <> 0 -> find (fun p => Nat.eqb (gp_no p) n) t' = find (fun p => Nat.eqb (gp_no p) n) t0) /\ t' = t0).
  { intros tr tw TI TW d' t' (n & C & X).
    assert (t' = t0) by (destruct X as [|(k & K & _)]; [assumption|eapply TW, K]). subst t'. sp; auto. eapply crash_at_in; eauto. }
  unfold g_lift in H at 1.
  destruct (clear_part fuel o dsz bp (g_io g2')) as [r3 st3] eqn:E3. apply clear_part_spec in E3; [|rewrite HS; exact HB].
  destruct E3 as (n & tr1 & Nn & T3 & C3 & D3 & R3). rewrite T2' in T3. rewrite D2' in D3. rewrite HS in Nn, R3. cbn [app] in T3.
  assert (I1 : tr_in h (h + half) tr1) by (eapply consecutive_in; [exact C3|rewrite lenN_repeat; lia]).
  set (g3 := mkGst st3 (g_tab g2') (g_writes g2')) in *.
  assert (NW : forall k t, In (k, t) (g_writes g2') -> t = t0) by (rewrite W2'; intros k t []).
  destruct r3 as [[]| |].
  2:{ injection H as <- <-. split; [|discriminate]. cbn. intros d' t' C. rewrite T3 in C. destruct (NOTAB _ _ I1 NW _ _ C) as (? & ? & ?). auto. }
  2:{ injection H as <- <-. split; [|discriminate]. cbn. intros d' t' C. rewrite T3 in C. destruct (NOTAB _ _ I1 NW _ _ C) as (? & ? & ?). auto. }
  rewrite (R3 eq_refl) in C3. clear R3 Nn n.
  unfold g_lift in H. cbn [g3 g_io g_tab g_writes] in H.
  destruct (write_part fuel o dsz ss img size bp 0 st3) as [r4 st4] eqn:E4. apply write_part_spec in E4.
  destruct E4 as (tr2 & T4 & D4 & done & SH & R4). cbn [N.to_nat firstn skipn] in SH. apply raw_shape_plain in SH. fold h in SH. destruct SH as [I2 SH].
  rewrite T3 in T4.
  assert (I12 : tr_in h (h + half) (tr1 ++ tr2)).
  { apply tr_in_app. split; [exact I1|]. eapply tr_in_weaken; [| |exact I2]; lia. }
  assert (D4' : forall p, io_disk st4 p = play d0 (tr1 ++ tr2) p).
  { intros p. rewrite D4, play_app. apply play_ext, D3. }
  destruct r4 as [[]| |].
  2:{ injection H as <- <-. split; [|discriminate]. cbn. intros d' t' C. rewrite T4 in C. destruct (NOTAB _ _ I12 NW _ _ C) as (? & ? & ?). auto. }
  2:{ injection H as <- <-. split; [|discriminate]. cbn. intros d' t' C. rewrite T4 in C. destruct (NOTAB _ _ I12 NW _ _ C) as (? & ? & ?). auto. }
  destruct (SH (R4 eq_refl)) as (body & -> & CB & FS). clear SH R4.
  destruct (g_ok o _) as [ok5 g5] eqn:E5. apply g_ok_spec in E5 as (D5 & T5 & B5 & W5). cbn [g_io g_tab g_writes] in D5, T5, B5, W5. rewrite T4 in T5.
  rewrite B2' in B5. rewrite W2' in W5.
  destruct ok5; cbn [negb] in H.
  2:{ injection H as <- <-. split; [|discriminate]. intros d' t' C. rewrite T5 in C. rewrite W5 in C. rewrite W2' in NW. destruct (NOTAB _ _ I12 NW _ _ C) as (? & ? & ?). auto. }
  apply gpt_set_spec in H. rewrite T5, B5, W5 in H. fold h in H. rewrite HS in H. cbn [app] in H. destruct H as (DD & TT & (w & WW & Hw) & RR).
  set (t1 := set_boot_entry (h / ss) (half / ss) t0) in *.
  assert (DIVH : (h / ss * ss = h)%N) by (apply div_exact; assumption).
  assert (HNZ : half <> 0%N) by (clear - V1 HH; lia).
  assert (BI : gpt_boot_is ss t1 h half).
  { exists (mkGpart 0 (h / ss) (h / ss + half / ss - 1)). split; [eapply set_boot_entry_boot; exact PB|]. cbn. split; [exact DIVH|].
    assert (QZ : (half / ss <> 0)%N) by (intros Z; rewrite Z in DH; apply HNZ; rewrite <- DH; reflexivity).
    transitivity (half / ss * ss)%N; [|exact DH]. f_equal. revert QZ. generalize (half / ss)%N (h / ss)%N. clear. intros. lia. }
  assert (PB2 : forall p, play d0 (tr1 ++ body) p = dwrite (dwrite d0 h (repeat 0%N (N.to_nat half))) h (firstn (N.to_nat size) img) p).
  { intros p. rewrite play_app, (consecutive_play _ _ _ CB). apply dwrite_ext. apply (consecutive_play _ _ _ C3). }
  assert (NEW : forall d', (forall p, d' p = play d0 (tr1 ++ body) p) ->
    dread d' h (List.length (firstn (N.to_nat size) img)) = firstn (N.to_nat size) img /\
    (forall p, (h + size <= p < h + half)%N -> d' p = 0%N)).
  { intros d' X. split.
    - rewrite <- (dread_dwrite_same (dwrite d0 h (repeat 0%N (N.to_nat half))) h (firstn (N.to_nat size) img)) at 2.
      apply dread_ext. intros p Hp. rewrite X. apply PB2.
    - intros p Hp. rewrite X, PB2. rewrite dwrite_out by (right; rewrite lenN_firstn; lia).
      rewrite dwrite_in by (rewrite lenN_repeat; lia). apply nth_repeat. }
  split.
  - intros d' t' (n & C & X). rewrite TT in C. split; [eapply crash_at_in; [exact I12|exact C]|].
    rewrite WW in X. destruct X as [->|(k & K & LE)]; [auto|]. destruct (Hw k t' K) as [-> [->|[-> _]]]; [auto|].
    split; [intros m Hm; now apply set_boot_entry_other|]. right. split; [exact BI|].
    rewrite app_assoc in C. rewrite app_assoc in LE. pose proof (crash_at_full _ _ _ _ _ C LE) as FULL. split; [apply NEW, FULL|exact FS].
  - intros R. destruct (RR R) as [-> _]. split; [exact BI|].
    assert (HI : forall p, io_disk (g_io g') p = play d0 (tr1 ++ body) p).
    { intros p. rewrite DD, D5, D4', app_assoc, play_app. reflexivity. }
    destruct (NEW _ HI). auto.
Qed.
