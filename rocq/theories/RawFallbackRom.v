From Verif Require Import Base Disk DiskLemmas ExactIO ExactIOSpec ExactIOProofs BootRegion BootRegionSpec BootRegionProofs MbrProofs MbrRefuted RawFallbackSpec RawFallbackProofs.

(** ** devices that write in program order *)
Lemma in_order_app ss d0 A B d' : crash_in_order ss d0 (A ++ B) d' -> crash_in_order ss d0 A d' \/ crash_in_order ss (play d0 A) B d'.
Proof.
  intros (b & p & rest & E & L & C). destruct (le_lt_dec (List.length A) (List.length b)) as [LE|LT].
  - right. assert (F : b = A ++ skipn (List.length A) b).
    { rewrite <- (firstn_skipn (List.length A) b) at 1. f_equal. apply (f_equal (firstn (List.length A))) in E.
      rewrite firstn_app, firstn_all, Nat.sub_diag, firstn_O, app_nil_r in E. etransitivity; [|symmetry; exact E]. rewrite firstn_app.
      replace (List.length A - List.length b) with 0 by lia. rewrite firstn_O. now rewrite app_nil_r. }
    rewrite F in E. rewrite <- app_assoc in E. apply app_inv_head in E.
    exists (skipn (List.length A) b), p, rest. split; [exact E|]. split; [exact L|]. intros s. destruct (C s) as [k Ck]. exists k. intros x Hx.
    rewrite Ck by exact Hx. rewrite F at 1. rewrite <- app_assoc, play_app. reflexivity.
  - left. rewrite app_assoc in E. set (q := b ++ p) in *. assert (LQ : List.length q <= List.length A) by (unfold q; rewrite app_length; lia).
    exists b, p, (skipn (List.length q) A). split; [|split; assumption]. rewrite app_assoc. fold q.
    rewrite <- (firstn_skipn (List.length q) A) at 1. f_equal. apply (f_equal (firstn (List.length q))) in E.
    rewrite !firstn_app in E. rewrite firstn_all, Nat.sub_diag, firstn_O, app_nil_r in E.
    replace (List.length q - List.length A) with 0 in E by lia. rewrite firstn_O, app_nil_r in E. exact E.
Qed.
Lemma in_order_in lo hi ss d0 tr d' : tr_in lo hi tr -> crash_in_order ss d0 tr d' -> same_outside lo hi d0 d'.
Proof.
  intros H (b & p & rest & -> & _ & C) x Hx. destruct (C (x / ss)%N) as [k Ck]. rewrite Ck by reflexivity.
  eapply tr_in_play; [|exact Hx]. rewrite !tr_in_app in H. rewrite tr_in_app. split; [tauto|]. now apply tr_in_firstn.
Qed.
Lemma in_order_nil ss d0 d' x : crash_in_order ss d0 [] d' -> d' x = d0 x.
Proof.
  intros (b & p & rest & E & _ & C). destruct (C (x / ss)%N) as [k Ck]. symmetry in E. apply app_eq_nil in E as [-> E]. apply app_eq_nil in E as [-> _].
  rewrite Ck by reflexivity. now rewrite firstn_nil.
Qed.
Lemma in_order_one ss d0 e d' : crash_in_order ss d0 [e] d' ->
  forall s : N, (forall x, (x / ss = s)%N -> d' x = d0 x) \/ (forall x, (x / ss = s)%N -> d' x = ev_apply d0 e x).
Proof.
  intros (b & p & rest & E & _ & C) s. destruct (C s) as [k Ck]. destruct b as [|e0 b].
  - destruct p as [|e0 p].
    + left. intros x Hx. rewrite Ck by exact Hx. now rewrite firstn_nil.
    + injection E as <- E. symmetry in E. apply app_eq_nil in E as [-> _]. destruct k.
      * left. intros x Hx. now rewrite Ck.
      * right. intros x Hx. rewrite Ck by exact Hx. cbn [firstn]. now rewrite firstn_nil.
  - injection E as <- E. symmetry in E. apply app_eq_nil in E as [-> E]. apply app_eq_nil in E as [-> _].
    right. intros x Hx. rewrite Ck by exact Hx. now rewrite firstn_nil.
Qed.
(** a write of one aligned sector happens or not *)
Lemma in_order_sector d0 h l d' : (h mod 512 = 0)%N -> lenN l = 512%N -> crash_in_order 512 d0 [EW h l] d' ->
  (forall x, d' x = d0 x) \/ (forall x, d' x = dwrite d0 h l x).
Proof.
  intros M L C.
  assert (OUT : forall x, (x / 512 <> h / 512)%N -> d' x = d0 x /\ d' x = dwrite d0 h l x).
  { intros x Hx. assert (X : (x < h \/ h + lenN l <= x)%N).
    { rewrite L. pose proof (N.div_mod x 512 ltac:(lia)). pose proof (N.div_mod h 512 ltac:(lia)). pose proof (N.mod_lt x 512 ltac:(lia)). lia. }
    rewrite (dwrite_out d0 h l x X).
    destruct (in_order_one _ _ _ _ C (x / 512)%N) as [Q|Q]; rewrite Q by reflexivity; cbn [ev_apply]; rewrite ?(dwrite_out d0 h l x X); auto. }
  destruct (in_order_one _ _ _ _ C (h / 512)%N) as [Q|Q]; [left|right]; intros x; (destruct (N.eq_dec (x / 512) (h / 512)) as [E|E]; [now apply Q|now apply OUT]).
Qed.

(** ** events of one half, header sector separated *)
Definition z512 : list byte := repeat 0%N 512.
Lemma clear_first fuel o dsz h size st r st' : whole_sectors o -> (512 <= size < 2 ^ 32)%N -> (h + 512 <= dsz)%N ->
  clear_loop fuel o dsz h size 0 512 st = (r, st') ->
  (io_trace st' = io_trace st /\ r <> Done tt) \/
  exists n tr, io_trace st' = io_trace st ++ EW h z512 :: tr /\ consecutive (h + 512) tr (repeat 0%N n) /\ (N.of_nat n + 512 <= size)%N.
Proof.
  intros W S D H. destruct fuel as [|f]; cbn [clear_loop] in H.
  - destruct (N.ltb_spec 0 size); [|lia]. injection H as <- <-. left. split; [reflexivity|discriminate].
  - destruct (N.ltb_spec 0 size); [|lia]. rewrite N.sub_0_r in H. destruct (N.ltb_spec size 512); [lia|].
    unfold sys_pwrite in H. destruct (o (io_k st)) as [| |c] eqn:O.
    + injection H as <- <-. left. split; [reflexivity|discriminate].
    + injection H as <- <-. left. split; [reflexivity|discriminate].
    + apply W in O. destruct (N.leb_spec dsz h); [lia|]. rewrite lenN_repeat in H. change (N.of_nat (N.to_nat 512)) with 512%N in H.
      replace (N.min c (N.min 512 (dsz - h))) with 512%N in H by lia. change (N.to_nat 512) with 512 in H.
      rewrite firstn_repeat in H. change (Nat.min 512 512) with 512 in H. fold z512 in H.
      change ((0 + 512) mod 2 ^ 32)%N with 512%N in H. apply clear_loop_spec in H; try lia.
      destruct H as (n & tr & Nn & T & C & _). cbn [io_trace] in T. right. exists (N.to_nat (n - 512)), tr. split; [now rewrite T, <- app_assoc|]. split; [exact C|lia].
Qed.

Lemma header_length (img : list byte) size : lenN img = size -> (512 <= size)%N -> List.length (firstn 512 img) = 512.
Proof. intros A B. rewrite firstn_length. unfold lenN in A. lia. Qed.

Lemma update_half_events fuel o dsz ss img size bp st r st' : update_half fuel o dsz ss img size bp st = (r, st') ->
  whole_sectors o -> (bp_size bp < 2 ^ 32)%N -> (size <= bp_size bp)%N -> lenN img = size -> (512 <= size)%N -> (bp_start bp + bp_size bp <= dsz)%N ->
  let h := bp_start bp in
  exists tr, io_trace st' = io_trace st ++ tr /\
    (tr = [] \/ exists mid tl, tr = EW h z512 :: mid ++ tl /\ tr_in (h + 512) (h + bp_size bp) mid /\
       (tl = [] \/ exists fin, tl = EW h (firstn 512 img) :: fin /\ (fin = [] \/ fin = [ESync]) /\
          forall d, holds (play d (EW h z512 :: mid ++ [EW h (firstn 512 img)])) h img)).
Proof.
  intros H W B FIT SZ S5 DV. cbv zeta. set (h := bp_start bp) in *. unfold update_half in H.
  destruct (clear_part fuel o dsz bp st) as [r1 st1] eqn:E1. unfold clear_part in E1.
  destruct (sys_ok o st) as [ok sa] eqn:EA. apply sys_ok_spec in EA as [_ TA].
  destruct ok; cbn [negb] in E1; [|injection E1 as <- <-; injection H as <- <-; exists []; rewrite app_nil_r; auto].
  fold h in E1. destruct (lseek_ok dsz h); cbn [negb] in E1; [|injection E1 as <- <-; injection H as <- <-; exists []; rewrite app_nil_r; auto].
  apply clear_first in E1; [|exact W|lia|lia]. rewrite TA in E1.
  destruct E1 as [(T1 & N1)|(n & z & T1 & CZ & NZ)].
  - destruct r1 as [[]| |]; [contradiction| |]; injection H as <- <-; exists []; rewrite app_nil_r; auto.
  - assert (IZ : tr_in (h + 512) (h + bp_size bp) z) by (eapply consecutive_in; [exact CZ|rewrite lenN_repeat; lia]).
    destruct r1 as [[]| |].
    2,3: injection H as <- <-; exists (EW h z512 :: z); split; [exact T1|]; right; exists z, []; rewrite app_nil_r; auto.
    apply write_part_spec in H. destruct H as (tr2 & T2 & _ & done & SH & _). change (N.to_nat 512) with 512 in SH. fold h in SH.
    destruct SH as (body & l & tl & -> & C & (r2 & RS) & L & X).
    assert (LH : List.length (firstn 512 img) = 512) by (eapply header_length; eassumption).
    assert (LN : lenN (firstn 512 img) = 512%N) by (unfold lenN; now rewrite LH). rewrite LN in *.
    assert (IB : tr_in (h + 512) (h + bp_size bp) body).
    { eapply tr_in_weaken; [apply N.le_refl| |eapply consecutive_in; [exact C|apply N.le_refl]].
      assert (lenN l + lenN r2 + 512 = size)%N; [|lia]. rewrite <- SZ, <- (firstn_skipn 512 img), lenN_app, LN, RS, lenN_app. lia. }
    assert (IZB : tr_in (h + 512) (h + bp_size bp) (z ++ body)) by (apply tr_in_app; auto).
    destruct X as [(-> & _)|(F & _ & [(HE & _)|(ht & m & fin & _ & -> & Mm & CH & AT & FIN)])].
    + rewrite app_nil_r in T2. exists (EW h z512 :: z ++ body). split; [rewrite T2, T1, <- app_assoc; reflexivity|]. right. exists (z ++ body), []. rewrite app_nil_r. auto.
    + rewrite HE in LH. discriminate.
    + assert (IM : tr_in (h + 512) (h + bp_size bp) (z ++ body ++ [ESync])).
      { rewrite app_assoc. apply tr_in_app. split; [exact IZB|apply tr_in_sync]. }
      exists (EW h z512 :: (z ++ body ++ [ESync]) ++ ht ++ fin). split.
      { rewrite T2, T1, <- app_assoc. cbn [app]. rewrite <- !app_assoc. reflexivity. }
      right. exists (z ++ body ++ [ESync]), (ht ++ fin). split; [reflexivity|]. split; [exact IM|].
      assert (FD : (h + 512 <= dsz)%N) by lia. destruct (AT (conj W (conj (N.le_refl _) FD))) as [-> | ->].
      * left. cbn [app]. destruct FIN as [[-> _]|(-> & -> & _)]; [reflexivity|]. exfalso.
        change (N.to_nat 512) with 512 in CH. rewrite (firstn_all2 (firstn 512 img)) in CH by (rewrite LH; lia).
        remember (firstn 512 img) as hd eqn:HE. clear - CH LH. inversion CH; subst. discriminate.
      * right. exists fin. split; [reflexivity|]. split; [destruct FIN as [[-> _]|(-> & _)]; auto|].
        intros d. rewrite firstn_all2 in F by (unfold lenN in SZ; lia).
        eapply holds_ext; [|apply (holds_dwrite (play d (EW h z512 :: z)) h img)]. intros p _.
        set (dz := play d (EW h z512 :: z)).
        assert (RHS : play d (EW h z512 :: (z ++ body ++ [ESync]) ++ [EW h (firstn 512 img)]) = dwrite (play dz body) h (firstn 512 img)).
        { unfold dz. rewrite !play_cons, <- !app_assoc, !play_app. reflexivity. }
        rewrite RHS. transitivity (dwrite dz h (firstn 512 img ++ l) p); [now rewrite <- F|].
        rewrite <- dwrite_swap, LN. apply dwrite_ext. symmetry. apply (consecutive_play _ _ _ C).
Qed.

(** in-order power loss while one half is updated: nothing happened, or the header is
    zero, or the new image is complete *)
Lemma half_in_order h half img d tr d' : (h mod 512 = 0)%N -> List.length (firstn 512 img) = 512 ->
  (tr = [] \/ exists mid tl, tr = EW h z512 :: mid ++ tl /\ tr_in (h + 512) (h + half) mid /\
       (tl = [] \/ exists fin, tl = EW h (firstn 512 img) :: fin /\ (fin = [] \/ fin = [ESync]) /\
          forall d, holds (play d (EW h z512 :: mid ++ [EW h (firstn 512 img)])) h img)) ->
  crash_in_order 512 d tr d' ->
  (forall x, d' x = d x) \/ (forall i, (i < 512)%N -> d' (h + i)%N = 0%N) \/ holds d' h img.
Proof.
  intros M LH S C. destruct S as [->|(mid & tl & -> & IM & S)]; [left; intros x; now apply in_order_nil with (ss := 512%N)|].
  assert (ZERO : forall d0 i, (i < 512)%N -> dwrite d0 h z512 (h + i)%N = 0%N).
  { intros d0 i Hi. rewrite dwrite_in by (change (lenN z512) with 512%N; lia). apply nth_repeat. }
  change (EW h z512 :: mid ++ tl) with ([EW h z512] ++ mid ++ tl) in C. apply in_order_app in C as [C|C].
  { apply in_order_sector in C; [|exact M|reflexivity]; destruct C as [Q|Q]; [now left|]. right. left. intros i Hi. rewrite Q. now apply ZERO. }
  rewrite play_cons, play_nil in C. cbn [ev_apply] in C. right. set (d1 := dwrite d h z512) in *.
  assert (Z1 : forall i, (i < 512)%N -> d1 (h + i)%N = 0%N) by (intros; now apply ZERO).
  apply in_order_app in C as [C|C].
  { left. intros i Hi. rewrite (in_order_in _ _ _ _ _ _ IM C) by lia. now apply Z1. }
  set (d2 := play d1 mid) in *.
  assert (Z2 : forall i, (i < 512)%N -> d2 (h + i)%N = 0%N).
  { intros i Hi. unfold d2. rewrite (tr_in_play _ _ _ IM) by lia. now apply Z1. }
  destruct S as [->|(fin & -> & F & HO)].
  { left. intros i Hi. rewrite (in_order_nil 512 _ _ _ C). now apply Z2. }
  assert (FULL : holds (dwrite d2 h (firstn 512 img)) h img).
  { specialize (HO d). rewrite play_cons, play_app, play_cons, play_nil in HO. exact HO. }
  change (EW h (firstn 512 img) :: fin) with ([EW h (firstn 512 img)] ++ fin) in C. apply in_order_app in C as [C|C].
  - apply in_order_sector in C; [|exact M|unfold lenN; rewrite LH; reflexivity]. destruct C as [Q|Q].
    + left. intros i Hi. rewrite Q. now apply Z2.
    + right. eapply holds_ext; [|exact FULL]. intros p _. symmetry. apply Q.
  - right. rewrite play_cons, play_nil in C. cbn [ev_apply] in C. eapply holds_ext; [|exact FULL]. intros p _. symmetry.
    destruct F as [->| ->]; [now apply in_order_nil with (ss := 512%N)|].
    destruct (in_order_one _ _ _ _ C (p / 512)%N) as [Q|Q]; rewrite Q by reflexivity; reflexivity.
Qed.

Lemma holds_header d pos l : holds d pos l -> 512 <= List.length l -> dread d pos 512 = firstn 512 l.
Proof.
  intros H L. unfold holds in H. rewrite <- H. replace (List.length l) with (512 + (List.length l - 512)) at 1 by lia.
  rewrite dread_app, firstn_app, dread_length, Nat.sub_diag, firstn_O, app_nil_r, firstn_all2; [reflexivity|]. rewrite dread_length. lia.
Qed.
Lemma clear_no_header d rs l : header_clear d rs -> real_header l -> dread d rs 512 <> firstn 512 l.
Proof.
  intros C (i & Hi & N0 & N1) E. assert (E' : nth i (dread d rs 512) 0%N = nth i (firstn 512 l) 0%N) by (rewrite E; reflexivity). rewrite dread_nth in E' by exact Hi.
  assert (X : nth i (firstn 512 l) 0%N = nth i l 0%N).
  { transitivity (nth i (firstn 512 l ++ skipn 512 l) 0%N); [|now rewrite firstn_skipn]. destruct (le_lt_dec (List.length l) i) as [G|G].
    - rewrite (nth_overflow l) in N0 by exact G. congruence.
    - rewrite app_nth1; [reflexivity|]. rewrite firstn_length. lia. }
  pose proof (eq_trans E' X) as E2. specialize (C (N.of_nat i) ltac:(lia)). rewrite E2 in C. destruct C; contradiction.
Qed.

Lemma c24_rom_ok : forall fuel o dsz rs rz img size old d0 r st',
  whole_sectors o -> (rs + rz < 2 ^ 64)%N -> (rs + rz <= dsz)%N -> (rz / 2 < 2 ^ 32)%N -> lenN img = size ->
  (512 <= size)%N -> (512 <= lenN old <= rz / 2)%N -> real_header old -> real_header img ->
  holds d0 rs old \/ (header_clear d0 rs /\ holds d0 (rs + rz / 2) old) ->
  raw_fallback_handler fuel o dsz 512 rs rz img size (mkIo 0 d0 []) = (r, st') ->
  forall d', crash_in_order 512 d0 (io_trace st') d' ->
    (rom_primary d' rs old img -> holds d' rs old \/ holds d' rs img) /\
    (~ rom_primary d' rs old img -> holds d' (rs + rz / 2) old \/ holds d' (rs + rz / 2) img).
Proof.
  intros fuel o dsz rs rz img size old d0 r st' W NO DV HB SZ S5 LO RO RI INIT H d' C.
  apply raw_fallback_spec in H; [|exact NO|exact HB|exact SZ]. cbn [io_trace io_disk] in H.
  assert (DV2 : (rs + rz / 2 * 2 <= dsz)%N) by (pose proof (N.div_mod rz 2 ltac:(lia)); lia).
  set (half := (rz / 2)%N) in *. clearbody half.
  assert (LH : List.length (firstn 512 img) = 512) by (eapply header_length; eassumption).
  assert (ILEN : 512 <= List.length img) by (unfold lenN in SZ; lia).
  assert (OLEN : 512 <= List.length old) by (unfold lenN in LO; lia).
  assert (NC : forall d, header_clear d rs -> ~ rom_primary d rs old img).
  { intros d Q [E|E]; [exact (clear_no_header d rs old Q RO E)|exact (clear_no_header d rs img Q RI E)]. }
  assert (ZC : forall d, (forall i, (i < 512)%N -> d (rs + i)%N = 0%N) -> header_clear d rs) by (intros d Q i Hi; left; now apply Q).
  (* the two ways to be fine *)
  assert (PRI : forall d l, (l = old \/ l = img) -> holds d rs l -> 
    (rom_primary d rs old img -> holds d rs old \/ holds d rs img) /\ (~ rom_primary d rs old img -> holds d (rs + half) old \/ holds d (rs + half) img)).
  { intros d l [->| ->] Q; (split; [auto|]); intros X; exfalso; apply X; [left|right]; now apply holds_header. }
  assert (FAL : forall d l, (l = old \/ l = img) -> header_clear d rs -> holds d (rs + half) l ->
    (rom_primary d rs old img -> holds d rs old \/ holds d rs img) /\ (~ rom_primary d rs old img -> holds d (rs + half) old \/ holds d (rs + half) img)).
  { intros d l [->| ->] Q1 Q2; (split; [intros X; exfalso; exact (NC d Q1 X)|auto]). }
  assert (OC : holds d0 rs old -> ~ header_clear d0 rs).
  { intros Q1 Q2. apply (clear_no_header d0 rs old Q2 RO). now apply holds_header. }
  destruct H as [(T & D & _)|(h1 & h2 & st1 & st2 & r1 & (A1 & A2 & FIT) & HH & T1 & D1 & U1 & X)].
  - rewrite T in C. pose proof (fun x => in_order_nil 512 d0 d' x C) as EQ. destruct INIT as [Q|[Q1 Q2]].
    + apply (PRI d' old); auto. eapply holds_ext; [|exact Q]. intros; symmetry; apply EQ.
    + apply (FAL d' old); auto; [intros i Hi; rewrite EQ; now apply Q1|]. eapply holds_ext; [|exact Q2]. intros; symmetry; apply EQ.
  - assert (A3 : ((rs + half) mod 512 = 0)%N) by (rewrite N.add_mod, A1, A2 by lia; reflexivity).
    assert (HM : (h1 mod 512 = 0 /\ h2 mod 512 = 0)%N) by (destruct HH as [(_ & -> & ->)|(_ & -> & ->)]; auto). destruct HM as [HM1 HM2].
    assert (HD : (h1 + half <= dsz /\ h2 + half <= dsz)%N) by (destruct HH as [(_ & -> & ->)|(_ & -> & ->)]; lia). destruct HD as [HD1 HD2].
    pose proof (update_half_events _ _ _ _ _ _ _ _ _ _ U1 W HB FIT SZ S5 HD1) as EV1. cbn [bp_start bp_size] in EV1.
    apply update_half_spec in U1; [|exact HB|exact FIT|exact SZ]. cbn [bp_start bp_size] in U1. destruct U1 as (tr1 & Tr1 & Dr1 & I1 & R1).
    rewrite T1 in Tr1. rewrite D1 in Dr1. cbn [app] in Tr1.
    destruct EV1 as (tr1' & EE & S1). rewrite Tr1, T1 in EE. cbn [app] in EE. subst tr1'.
    (* power loss in the first phase *)
    assert (PH1 : crash_in_order 512 d0 tr1 d' ->
      (rom_primary d' rs old img -> holds d' rs old \/ holds d' rs img) /\ (~ rom_primary d' rs old img -> holds d' (rs + half) old \/ holds d' (rs + half) img)).
    { intros C1. pose proof (in_order_in _ _ _ _ _ _ I1 C1) as SO. destruct HH as [(CL & -> & ->)|(CL & -> & ->)].
      - assert (HO : holds d' (rs + half) old).
        { destruct INIT as [Q|[_ Q]]; [exfalso; exact (OC Q CL)|]. eapply holds_ext; [|exact Q]. intros p Hp. symmetry. apply SO. lia. }
        destruct (half_in_order _ _ _ _ _ _ A1 LH S1 C1) as [Q|[Q|Q]].
        + apply (FAL d' old); auto. intros i Hi. rewrite Q. now apply CL.
        + apply (FAL d' old); auto.
        + apply (PRI d' img); auto.
      - apply (PRI d' old); auto. destruct INIT as [Q|[Q _]]; [|contradiction]. eapply holds_ext; [|exact Q]. intros p Hp. symmetry. apply SO. lia. }
    destruct X as [(N1 & _ & ->)|(r2 & st3 & -> & U2 & T3 & D3 & _)].
    + rewrite Tr1 in C. now apply PH1.
    + destruct (R1 eq_refl) as (A & EA & PA).
      pose proof (update_half_events _ _ _ _ _ _ _ _ _ _ U2 W HB FIT SZ S5 HD2) as EV2. cbn [bp_start bp_size] in EV2.
      apply update_half_spec in U2; [|exact HB|exact FIT|exact SZ]. cbn [bp_start bp_size] in U2. destruct U2 as (tr2 & Tr2 & _ & I2 & _).
      destruct EV2 as (tr2' & EE & S2). rewrite Tr2 in EE. apply app_inv_head in EE. subst tr2'.
      rewrite T3, Tr2, Tr1 in C. apply in_order_app in C as [C|C]; [now apply PH1|].
      set (d1 := play d0 tr1) in *.
      assert (NEW : holds d1 h1 img).
      { unfold d1. rewrite EA, play_app. cbn [play fold_left ev_apply]. fold (play d0 A).
        eapply holds_ext; [|apply (holds_dwrite (dwrite d0 h1 (repeat 0%N (N.to_nat half))))]. intros p _. symmetry. apply PA. }
      pose proof (in_order_in _ _ _ _ _ _ I2 C) as SO. destruct HH as [(CL & -> & ->)|(CL & -> & ->)].
      * apply (PRI d' img); auto. eapply holds_ext; [|exact NEW]. intros p Hp. symmetry. apply SO. lia.
      * assert (HO : holds d' (rs + half) img).
        { eapply holds_ext; [|exact NEW]. intros p Hp. symmetry. apply SO. lia. }
        destruct (half_in_order _ _ _ _ _ _ A1 LH S2 C) as [Q|[Q|Q]].
        -- apply (PRI d' old); auto. assert (Q0 : holds d0 rs old) by (destruct INIT as [?|[? _]]; [assumption|contradiction]).
           eapply holds_ext; [|exact Q0]. intros p Hp. rewrite Q. unfold d1. symmetry. eapply tr_in_play; [exact I1|]. lia.
        -- apply (FAL d' img); auto.
        -- apply (PRI d' img); auto.
Qed.
