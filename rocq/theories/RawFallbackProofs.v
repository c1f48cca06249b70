From Verif Require Import Base Disk DiskLemmas ExactIO ExactIOSpec ExactIOProofs BootRegion BootRegionSpec BootRegionProofs MbrProofs RawFallbackSpec.

Lemma dwrite_swap d off a b p : dwrite (dwrite d (off + lenN a) b) off a p = dwrite d off (a ++ b) p.
Proof.
  rewrite <- dwrite_app. destruct (N.lt_decidable p off) as [A|A].
  - now rewrite !dwrite_out by lia.
  - destruct (N.lt_decidable p (off + lenN a)) as [B|B].
    + rewrite (dwrite_in _ off a) by lia. rewrite (dwrite_out _ (off + lenN a) b) by lia. rewrite dwrite_in by lia. reflexivity.
    + rewrite (dwrite_out _ off a) by lia. destruct (N.lt_decidable p (off + lenN a + lenN b)) as [C|C].
      * rewrite !dwrite_in by lia. reflexivity.
      * rewrite !dwrite_out by lia. reflexivity.
Qed.
Lemma holds_ext d d' pos l : (forall p, (pos <= p < pos + lenN l)%N -> d p = d' p) -> holds d pos l -> holds d' pos l.
Proof. unfold holds. intros H E. rewrite <- E at 2. symmetry. apply dread_ext. exact H. Qed.
Lemma holds_dwrite d pos l : holds (dwrite d pos l) pos l.
Proof. apply dread_dwrite_same. Qed.
Lemma same_outside_trans lo hi d d1 d2 : same_outside lo hi d d1 -> same_outside lo hi d1 d2 -> same_outside lo hi d d2.
Proof. intros A B p Hp. rewrite B by exact Hp. now apply A. Qed.

(** ** copy with the header last *)
Lemma raw_shape_header at1 pos size img hl tr done :
  raw_shape at1 pos size img (firstn (N.to_nat hl) img) (skipn (N.to_nat hl) img) tr done -> lenN img = size ->
  tr_in pos (pos + size) tr /\
  (done = true -> exists A, tr = A ++ [ESync] /\ forall d p, play d A p = dwrite d pos img p).
Proof.
  set (header := firstn (N.to_nat hl) img). set (rest0 := skipn (N.to_nat hl) img).
  assert (IMG : img = header ++ rest0) by (unfold header, rest0; now rewrite firstn_skipn). clearbody header rest0.
  intros (body & l & tl & -> & C & (r2 & RS) & L & H) SZ.
  assert (LEN : (lenN header + lenN l + lenN r2 = size)%N) by (rewrite <- SZ, IMG, RS, !lenN_app; lia).
  assert (TB : tr_in pos (pos + size) body).
  { eapply tr_in_weaken; [| |eapply consecutive_in; [exact C|apply N.le_refl]]; lia. }
  destruct H as [(-> & ->)|(F & S & [(HE & -> & ->)|(ht & m & fin & HN & -> & Mm & CH & AT & FIN)])].
  - rewrite app_nil_r. split; [exact TB|discriminate].
  - split; [apply tr_in_app; split; [exact TB|apply tr_in_sync]|]. intros _. exists body. split; [reflexivity|].
    intros d p. rewrite (consecutive_play _ _ _ C). rewrite HE, lenN_nil, N.add_0_r.
    rewrite firstn_all2 in F by (unfold lenN in SZ; lia). rewrite F, HE. reflexivity.
  - assert (TH : tr_in pos (pos + size) ht).
    { eapply tr_in_weaken; [| |eapply consecutive_in; [exact CH|apply N.le_refl]]; [lia|]. rewrite lenN_firstn. lia. }
    assert (TF : tr_in pos (pos + size) fin) by (destruct FIN as [[-> _]|[-> _]]; [apply tr_in_nil|apply tr_in_sync]).
    split.
    + apply tr_in_app. split; [exact TB|]. change (ESync :: ht ++ fin) with ([ESync] ++ ht ++ fin).
      apply tr_in_app. split; [apply tr_in_sync|]. now apply tr_in_app.
    + intros D. destruct FIN as [[_ X]|(-> & -> & _)]; [congruence|].
      exists (body ++ ESync :: ht). split; [now rewrite <- app_assoc|]. intros d p.
      rewrite firstn_all2 in F by (unfold lenN in SZ; lia).
      rewrite firstn_all2 in CH by (unfold lenN; lia).
      rewrite play_app, play_cons. cbn [ev_apply]. rewrite (consecutive_play _ _ _ CH).
      rewrite F, <- dwrite_swap. apply dwrite_ext. apply (consecutive_play _ _ _ C).
Qed.

Lemma update_half_spec fuel o dsz ss img size bp st r st' : update_half fuel o dsz ss img size bp st = (r, st') ->
  (bp_size bp < 2 ^ 32)%N -> (size <= bp_size bp)%N -> lenN img = size ->
  exists tr, io_trace st' = io_trace st ++ tr /\ (forall p, io_disk st' p = play (io_disk st) tr p) /\
    tr_in (bp_start bp) (bp_start bp + bp_size bp) tr /\
    (r = Done tt -> exists A, tr = A ++ [ESync] /\ forall d p, play d A p = dwrite (dwrite d (bp_start bp) (repeat 0%N (N.to_nat (bp_size bp)))) (bp_start bp) img p).
Proof.
  intros H B FIT SZ. unfold update_half in H.
  destruct (clear_part fuel o dsz bp st) as [r1 st1] eqn:E1. apply clear_part_spec in E1; [|exact B].
  destruct E1 as (n & tr1 & Nn & T1 & C1 & D1 & R1).
  assert (I1 : tr_in (bp_start bp) (bp_start bp + bp_size bp) tr1) by (eapply consecutive_in; [exact C1|rewrite lenN_repeat; lia]).
  destruct r1 as [[]| |].
  2,3: injection H as <- <-; exists tr1; sp; auto; discriminate.
  rewrite (R1 eq_refl) in C1. clear R1.
  apply write_part_spec in H. destruct H as (tr2 & T2 & D2 & done & SH & R2). apply raw_shape_header in SH; [|exact SZ].
  destruct SH as [I2 SH]. exists (tr1 ++ tr2). sp.
  - now rewrite T2, T1, <- app_assoc.
  - intros p. rewrite D2, play_app. apply play_ext, D1.
  - apply tr_in_app. split; [exact I1|]. eapply tr_in_weaken; [| |exact I2]; lia.
  - intros R. destruct (SH (R2 R)) as (A & -> & PA). exists (tr1 ++ A). split; [now rewrite app_assoc|].
    intros d p. rewrite play_app, PA. apply dwrite_ext. apply (consecutive_play _ _ _ C1).
Qed.

(** ** the erased-header test *)
Lemma area_clear_loop_spec fuel : forall o dsz fdpos size clear st r st',
  area_clear_loop fuel o dsz fdpos size clear st = (r, st') ->
  io_disk st' = io_disk st /\ io_trace st' = io_trace st /\
  (forall b, r = Done b -> (b = true <-> clear = true /\ forall i, (i < size)%N -> io_disk st (fdpos + i)%N = 0%N \/ io_disk st (fdpos + i)%N = 255%N)).
Proof.
  induction fuel as [|f IH]; intros o dsz fdpos size clear st r st' H; cbn [area_clear_loop] in H.
  - destruct (N.eqb_spec size 0) as [Z|Z]; cbn [negb andb] in H.
    + injection H as <- <-. sp; auto. intros b E. injection E as <-. split; [intros ->; split; [reflexivity|intros; lia]|tauto].
    + destruct clear; injection H as <- <-; sp; auto; intros b E; [discriminate|]. injection E as <-. split; [discriminate|intros [? _]; discriminate].
  - destruct (N.eqb_spec size 0) as [Z|Z]; cbn [negb andb] in H.
    { injection H as <- <-. sp; auto. intros b E. injection E as <-. split; [intros ->; split; [reflexivity|intros; lia]|tauto]. }
    destruct clear; cbn [andb] in H.
    2:{ injection H as <- <-. sp; auto. intros b E. injection E as <-. split; [discriminate|intros [? _]; discriminate]. }
    unfold sys_pread in H. destruct (o (io_k st)) as [| |c].
    + injection H as <- <-. sp; auto. discriminate.
    + injection H as <- <-. sp; auto. discriminate.
    + set (n := if (dsz <=? fdpos)%N then 0 else N.to_nat (N.min (N.max 1 c) (N.min (N.min size 512) (dsz - fdpos)))).
      assert (LL : (if (dsz <=? fdpos)%N then [] else dread (io_disk st) fdpos (N.to_nat (N.min (N.max 1 c) (N.min (N.min size 512) (dsz - fdpos))))) = dread (io_disk st) fdpos n).
      { unfold n. now destruct (dsz <=? fdpos)%N. }
      rewrite LL in H. apply IH in H. cbn [io_disk io_trace] in H. destruct H as (D & T & R). sp; auto.
      intros b E. rewrite (R b E). rewrite dread_lenN.
      assert (NS : (N.of_nat n <= size)%N) by (unfold n; destruct (dsz <=? fdpos)%N; lia).
      rewrite forallb_forall. split.
      * intros [F1 F2]. split; [reflexivity|]. intros i Hi. destruct (N.lt_decidable i (N.of_nat n)) as [L|L].
        -- assert (X : In (io_disk st (fdpos + i)%N) (dread (io_disk st) fdpos n)).
           { replace (io_disk st (fdpos + i)%N) with (nth (N.to_nat i) (dread (io_disk st) fdpos n) 0%N).
             - apply nth_In. rewrite dread_length. lia.
             - rewrite dread_nth by lia. f_equal. lia. }
           apply F1 in X. apply orb_true_iff in X. rewrite !N.eqb_eq in X. exact X.
        -- replace (fdpos + i)%N with (fdpos + N.of_nat n + (i - N.of_nat n))%N by lia. apply F2. lia.
      * intros [_ F]. split.
        -- intros x Hx. apply In_nth with (d := 0%N) in Hx. destruct Hx as (k & K & <-). rewrite dread_length in K.
           rewrite dread_nth by exact K. apply orb_true_iff. rewrite !N.eqb_eq. apply F. lia.
        -- intros i Hi. rewrite <- N.add_assoc. apply F. lia.
Qed.
Lemma area_is_clear_spec fuel o dsz start st r st' : area_is_clear fuel o dsz start 512 st = (r, st') ->
  io_disk st' = io_disk st /\ io_trace st' = io_trace st /\ (forall b, r = Done b -> (b = true <-> header_clear (io_disk st) start)).
Proof.
  unfold area_is_clear. destruct (sys_ok o st) as [ok st1] eqn:E. apply sys_ok_spec in E as [D1 T1].
  destruct ok; cbn [negb]; [|intros H; injection H as <- <-; sp; auto; discriminate].
  destruct (lseek_ok dsz start); cbn [negb]; [|intros H; injection H as <- <-; sp; auto; discriminate].
  intros H. apply area_clear_loop_spec in H as (D & T & R). rewrite D1 in *. rewrite T1 in T. sp; auto.
  intros b E. rewrite (R b E). unfold header_clear. tauto.
Qed.

(** ** the handler, in two phases *)
Lemma raw_fallback_spec fuel o dsz ss rs rz img size st0 r st' :
  (rs + rz < 2 ^ 64)%N -> (rz / 2 < 2 ^ 32)%N -> lenN img = size ->
  raw_fallback_handler fuel o dsz ss rs rz img size st0 = (r, st') ->
  (io_trace st' = io_trace st0 /\ (forall p, io_disk st' p = io_disk st0 p) /\ r <> Done tt) \/
  exists h1 h2 st1 st2 r1,
    (rs mod 512 = 0 /\ (rz / 2) mod 512 = 0 /\ size <= rz / 2)%N /\
    (header_clear (io_disk st0) rs /\ h1 = rs /\ h2 = (rs + rz / 2)%N \/ ~ header_clear (io_disk st0) rs /\ h1 = (rs + rz / 2)%N /\ h2 = rs) /\
    io_trace st1 = io_trace st0 /\ io_disk st1 = io_disk st0 /\
    update_half fuel o dsz ss img size (mkBpart h1 (rz / 2)) st1 = (r1, st2) /\
    ((r1 <> Done tt /\ r <> Done tt /\ st' = st2) \/
     exists r2 st3, r1 = Done tt /\ update_half fuel o dsz ss img size (mkBpart h2 (rz / 2)) st2 = (r2, st3) /\
       io_trace st' = io_trace st3 /\ io_disk st' = io_disk st3 /\ (r = Done tt -> r2 = Done tt)).
Proof.
  intros NO HB SZ H. unfold raw_fallback_handler in H. set (half := (rz / 2)%N) in *.
  assert (HZ : (half <= rz)%N) by (apply N.div_le_upper_bound; lia). clearbody half.
  destruct (N.eqb_spec (rs mod 512) 0) as [A1|]; cbn [negb] in H; [|injection H as <- <-; left; sp; auto; discriminate].
  destruct (N.eqb_spec (half mod 512) 0) as [A2|]; cbn [negb] in H; [|injection H as <- <-; left; sp; auto; discriminate].
  destruct (N.ltb_spec half size) as [|FIT]; [injection H as <- <-; left; sp; auto; discriminate|].
  destruct (sys_ok o st0) as [ok sa] eqn:E. apply sys_ok_spec in E as [Da Ta].
  destruct ok; cbn [negb] in H; [|injection H as <- <-; left; rewrite Da; sp; auto; discriminate].
  destruct (area_is_clear fuel o dsz rs 512 sa) as [rc st1] eqn:E. apply area_is_clear_spec in E as (D1 & T1 & RC).
  rewrite Da in *. rewrite Ta in T1.
  destruct rc as [cl| |]; [|injection H as <- <-; left; rewrite D1; sp; auto; discriminate|injection H as <- <-; left; rewrite D1; sp; auto; discriminate].
  specialize (RC cl eq_refl).
  assert (W : w64 (rs + half) = (rs + half)%N) by (unfold w64; apply N.mod_small; lia). rewrite W in H.
  right.
  assert (X : exists h1 h2, (header_clear (io_disk st0) rs /\ h1 = rs /\ h2 = (rs + half)%N \/ ~ header_clear (io_disk st0) rs /\ h1 = (rs + half)%N /\ h2 = rs) /\
    (if cl then mkBpart rs half else mkBpart (rs + half) half) = mkBpart h1 half /\ (if cl then mkBpart (rs + half) half else mkBpart rs half) = mkBpart h2 half).
  { destruct cl.
    - exists rs, (rs + half)%N. split; [left; sp; auto; now apply RC|auto].
    - exists (rs + half)%N, rs. split; [right; sp; auto; intros Q; apply RC in Q; discriminate|auto]. }
  destruct X as (h1 & h2 & HH & E1 & E2). rewrite E1, E2 in H. exists h1, h2, st1.
  destruct (update_half fuel o dsz ss img size (mkBpart h1 half) st1) as [r1 st2] eqn:U1. exists st2, r1. sp; auto.
  destruct r1 as [[]| |].
  - right. destruct (update_half fuel o dsz ss img size (mkBpart h2 half) st2) as [r2 st3] eqn:U2. exists r2, st3.
    destruct r2 as [[]| |].
    + destruct (sys_ok o st3) as [ok5 st5] eqn:E5. apply sys_ok_spec in E5 as [D5 T5]. destruct ok5; injection H as <- <-; sp; auto.
    + injection H as <- <-. sp; auto; discriminate.
    + injection H as <- <-. sp; auto; discriminate.
  - injection H as <- <-. left. sp; auto; discriminate.
  - injection H as <- <-. left. sp; auto; discriminate.
Qed.

(** ** at every crash point one half holds a complete image *)
Lemma c24_one_complete_ok : forall fuel o dsz ss rs rz img size old d0 r st',
  (rs + rz < 2 ^ 64)%N -> (rz / 2 < 2 ^ 32)%N -> lenN img = size -> (lenN old <= rz / 2)%N ->
  (holds d0 rs old /\ ~ header_clear d0 rs) \/ (header_clear d0 rs /\ holds d0 (rs + rz / 2) old) ->
  raw_fallback_handler fuel o dsz ss rs rz img size (mkIo 0 d0 []) = (r, st') ->
  (forall d', crash ss d0 (io_trace st') d' ->
     same_outside rs (rs + rz / 2 * 2) d0 d' /\
     exists h, (h = rs \/ h = rs + rz / 2)%N /\ (holds d' h old \/ holds d' h img)) /\
  (r = Done tt -> holds (io_disk st') rs img /\ holds (io_disk st') (rs + rz / 2) img).
Proof.
  intros fuel o dsz ss rs rz img size old d0 r st' NO HB SZ LO INIT H.
  apply raw_fallback_spec in H; [|exact NO|exact HB|exact SZ]. cbn [io_trace io_disk] in H. set (half := (rz / 2)%N) in *. clearbody half.
  assert (OLD : forall d', d' = d0 -> True) by auto. clear OLD.
  destruct H as [(T & D & ND)|(h1 & h2 & st1 & st2 & r1 & (A1 & A2 & FIT) & HH & T1 & D1 & U1 & X)].
  - split; [|contradiction]. intros d' C. rewrite T in C. pose proof (fun x => crash_nil ss d0 d' x C) as EQ. split; [intros p _; apply EQ|].
    destruct INIT as [[HO _]|[_ HO]]; [exists rs|exists (rs + half)%N]; (split; [auto|left; eapply holds_ext; [|exact HO]; intros; symmetry; apply EQ]).
  - apply update_half_spec in U1; [|exact HB|exact FIT|exact SZ]. cbn [bp_start bp_size] in U1. destruct U1 as (tr1 & Tr1 & Dr1 & I1 & R1).
    rewrite T1 in Tr1. rewrite D1 in Dr1. cbn [app] in Tr1.
    assert (HO : holds d0 h2 old).
    { destruct HH as [(C & -> & ->)|(C & -> & ->)]; destruct INIT as [[? ?]|[? ?]]; auto; contradiction. }
    assert (DIS : ((h1 = rs /\ h2 = rs + half) \/ (h1 = rs + half /\ h2 = rs))%N) by tauto.
    assert (P1 : forall d', crash ss d0 tr1 d' -> same_outside rs (rs + half * 2) d0 d' /\
       exists h, (h = rs \/ h = rs + half)%N /\ (holds d' h old \/ holds d' h img)).
    { intros d' C. pose proof (crash_in _ _ _ _ _ _ I1 C) as SO. split; [intros p Hp; apply SO; lia|].
      exists h2. split; [tauto|]. left. eapply holds_ext; [|exact HO]. intros p Hp. symmetry. apply SO. lia. }
    destruct X as [(N1 & ND & ->)|(r2 & st3 & -> & U2 & T3 & D3 & R)].
    + split; [|contradiction]. rewrite Tr1. exact P1.
    + destruct (R1 eq_refl) as (A & -> & PA). apply update_half_spec in U2; [|exact HB|exact FIT|exact SZ].
      cbn [bp_start bp_size] in U2. destruct U2 as (tr2 & Tr2 & Dr2 & I2 & R2). rewrite T3, D3. rewrite Tr1 in Tr2. rewrite Tr2.
      assert (NEW1 : holds (play d0 A) h1 img).
      { eapply holds_ext; [|apply (holds_dwrite (dwrite d0 h1 (repeat 0%N (N.to_nat half))))]. intros p _. symmetry. apply PA. }
      assert (SA : same_outside rs (rs + half * 2) d0 (play d0 A)).
      { intros p Hp. apply tr_in_app in I1 as [I1 _]. eapply tr_in_play; [exact I1|]. lia. }
      split.
      * intros d' C. rewrite <- app_assoc in C. cbn [app] in C. apply crash_sync in C as [C|C].
        -- apply P1. destruct C as (b & p & rest & E & C). exists b, p, (rest ++ [ESync]). rewrite E, <- !app_assoc. auto.
        -- pose proof (crash_in _ _ _ _ _ _ I2 C) as SO. split; [eapply same_outside_trans; [exact SA|]; intros p Hp; apply SO; lia|].
           exists h1. split; [tauto|]. right. eapply holds_ext; [|exact NEW1]. intros p Hp. symmetry. apply SO. lia.
      * intros RD. destruct (R2 (R RD)) as (B & -> & PB).
        assert (PP : forall p, io_disk st3 p = play (play d0 A) B p).
        { intros p. rewrite Dr2, play_app. cbn [play fold_left ev_apply]. apply play_ext. rewrite Dr1, play_app. reflexivity. }
        assert (F2 : holds (io_disk st3) h2 img).
        { eapply holds_ext; [|apply (holds_dwrite (dwrite (play d0 A) h2 (repeat 0%N (N.to_nat half))))]. intros p _. rewrite PP. symmetry. apply PB. }
        assert (F1 : holds (io_disk st3) h1 img).
        { eapply holds_ext; [|exact NEW1]. intros p Hp. rewrite PP. symmetry. apply tr_in_app in I2 as [I2 _]. eapply tr_in_play; [exact I2|]. lia. }
        destruct DIS as [[-> ->]|[-> ->]]; auto.
Qed.
