From Verif Require Import Base Disk DiskLemmas ExactIO ExactIOSpec ExactIOProofs BootRegion BootRegionSpec BootRegionProofs MbrProofs GptSpec GptProofs MbrRefuted Emmc EmmcSpec.

(** ** the register byte *)
Definition all_bytes (f : N -> bool) : bool := forallb (fun i => f (N.of_nat i)) (seq 0 256).
Lemma all_bytes_spec f : all_bytes f = true -> forall c, (c < 256)%N -> f c = true.
Proof.
  unfold all_bytes. rewrite forallb_forall. intros H c Hc. rewrite <- (N2Nat.id c). apply H. apply in_seq. lia.
Qed.
Definition bp_eqb (a b : bootpart) : bool :=
  match a, b with BpNone, BpNone | BpError, BpError => true | BpPart i, BpPart j => Nat.eqb i j | _, _ => false end.
Lemma bp_eqb_eq a b : bp_eqb a b = true -> a = b.
Proof. destruct a, b; cbn; try discriminate; auto. intros H. apply Nat.eqb_eq in H. now subst. Qed.
Lemma read_bootpart_spec cfg : (cfg < 256)%N ->
  read_bootpart cfg = match boot_field cfg with 0%N => BpNone | 1%N => BpPart 0 | 2%N => BpPart 1 | _ => BpError end.
Proof.
  intros H. apply bp_eqb_eq. revert cfg H. apply (all_bytes_spec (fun cfg => bp_eqb (read_bootpart cfg)
    match boot_field cfg with 0%N => BpNone | 1%N => BpPart 0 | 2%N => BpPart 1 | _ => BpError end)). vm_compute. reflexivity.
Qed.
Lemma bootpart_value_spec cfg i : (cfg < 256)%N -> i = 0 \/ i = 1 ->
  let v := bootpart_value cfg i in (boot_field v = N.of_nat i + 1 /\ boot_ack v = boot_ack cfg /\ v < 256)%N.
Proof.
  intros H I. cbv zeta.
  assert (X : ((boot_field (bootpart_value cfg i) =? N.of_nat i + 1) && (boot_ack (bootpart_value cfg i) =? boot_ack cfg) && (bootpart_value cfg i <? 256))%N = true).
  { destruct I as [->| ->]; revert cfg H.
    - apply (all_bytes_spec (fun cfg => ((boot_field (bootpart_value cfg 0) =? N.of_nat 0 + 1) && (boot_ack (bootpart_value cfg 0) =? boot_ack cfg) && (bootpart_value cfg 0 <? 256))%N)). vm_compute. reflexivity.
    - apply (all_bytes_spec (fun cfg => ((boot_field (bootpart_value cfg 1) =? N.of_nat 1 + 1) && (boot_ack (bootpart_value cfg 1) =? boot_ack cfg) && (bootpart_value cfg 1 <? 256))%N)). vm_compute. reflexivity. }
  rewrite !andb_true_iff, !N.eqb_eq, N.ltb_lt in X. tauto.
Qed.

(** ** clearing *)
Definition clear_end (dsz limit : N) : N := if (0 <? limit)%N then N.min limit dsz else dsz.
Lemma clear_slot_loop_spec fuel : forall o dsz limit fdpos st r st',
  clear_slot_loop fuel o dsz limit fdpos fdpos st = (r, st') -> (fdpos <= clear_end dsz limit)%N ->
  exists n tr, io_trace st' = io_trace st ++ tr /\ consecutive fdpos tr (repeat 0%N n) /\ (forall p, io_disk st' p = play (io_disk st) tr p) /\
    (fdpos + N.of_nat n <= clear_end dsz limit)%N /\ (r = Done tt -> (fdpos + N.of_nat n = clear_end dsz limit)%N).
Proof.
  induction fuel as [|f IH]; intros o dsz limit fdpos st r st' H L; cbn [clear_slot_loop] in H.
  - injection H as <- <-. exists 0, []. rewrite app_nil_r. cbn. sp; auto; try constructor; try lia. discriminate.
  - assert (N0 : forall rr k, (rr <> Done tt \/ fdpos = clear_end dsz limit) -> (rr, mkIo k (io_disk st) (io_trace st)) = (r, st') ->
      exists n tr, io_trace st' = io_trace st ++ tr /\ consecutive fdpos tr (repeat 0%N n) /\ (forall p, io_disk st' p = play (io_disk st) tr p) /\
      (fdpos + N.of_nat n <= clear_end dsz limit)%N /\ (r = Done tt -> (fdpos + N.of_nat n = clear_end dsz limit)%N)).
    { intros rr k C E. injection E as <- <-. exists 0, []. rewrite app_nil_r. cbn. sp; auto; try constructor; try lia.
      intros E. destruct C as [C| ->]; [contradiction|lia]. }
    set (ws := if ((0 <? limit) && (limit <? fdpos + 1024))%N then (limit - fdpos)%N else 1024%N) in *.
    assert (WS : (0 < limit -> fdpos + ws <= limit)%N).
    { intros P. unfold ws, clear_end in *. destruct (N.ltb_spec 0 limit); [|lia]. destruct (N.ltb_spec limit (fdpos + 1024)); cbn [andb]; lia. }
    unfold sys_pwrite in H. destruct (o (io_k st)) as [| |c] eqn:O.
    + apply IH in H; [|exact L]. exact H.
    + eapply N0; [|exact H]. left. discriminate.
    + destruct (N.leb_spec dsz fdpos) as [G|G].
      * eapply N0; [|exact H]. right. unfold clear_end in *. destruct (0 <? limit)%N; lia.
      * rewrite lenN_repeat, N2Nat.id, firstn_repeat in H. set (n := N.min c (N.min ws (dsz - fdpos))) in *.
        replace (Nat.min (N.to_nat n) (N.to_nat ws)) with (N.to_nat n) in H by lia.
        assert (BND : (fdpos + n <= clear_end dsz limit)%N) by (unfold clear_end; destruct (N.ltb_spec 0 limit); lia).
        destruct ((0 <? limit) && (limit <=? fdpos + n))%N eqn:BR.
        -- injection H as <- <-. exists (N.to_nat n), [EW fdpos (repeat 0%N (N.to_nat n))]. cbn [io_trace io_disk]. sp; auto.
           ++ rewrite <- (app_nil_r (repeat 0%N (N.to_nat n))) at 2. constructor. constructor.
           ++ lia.
           ++ intros _. apply andb_true_iff in BR as [B1 B2]. apply N.ltb_lt in B1. apply N.leb_le in B2. unfold clear_end in *.
              destruct (N.ltb_spec 0 limit); lia.
        -- apply IH in H; [|exact BND]. destruct H as (m & tr & T & C & D & B & R). cbn [io_trace io_disk] in *.
           exists (N.to_nat n + m), (EW fdpos (repeat 0%N (N.to_nat n)) :: tr). sp; auto.
           ++ rewrite T. now rewrite <- app_assoc.
           ++ rewrite repeat_app. constructor. rewrite lenN_repeat, N2Nat.id. exact C.
           ++ lia.
           ++ intros E. specialize (R E). lia.
Qed.

Lemma clear_slot_spec fuel o dsz limit st r st' : clear_slot fuel o dsz limit st = (r, st') ->
  exists n tr, io_trace st' = io_trace st ++ tr /\ consecutive 0 tr (repeat 0%N n) /\ (forall p, io_disk st' p = play (io_disk st) tr p) /\
    (N.of_nat n <= clear_end dsz limit)%N /\ (r = Done tt -> (N.of_nat n = clear_end dsz limit)%N).
Proof.
  unfold clear_slot. destruct (sys_ok o st) as [ok st1] eqn:E. apply sys_ok_spec in E as [D1 T1].
  destruct ok; cbn [negb].
  2:{ intros H. injection H as <- <-. exists 0, []. rewrite app_nil_r. cbn. sp; auto; try constructor; try lia; [now rewrite D1|discriminate]. }
  destruct (clear_slot_loop fuel o dsz limit 0 0 st1) as [r2 st2] eqn:C. apply clear_slot_loop_spec in C; [|lia].
  destruct C as (n & tr & T & C & D & B & R). rewrite T1 in T. rewrite D1 in D. rewrite N.add_0_l in *.
  destruct r2 as [[]| |].
  - destruct (sys_ok o st2) as [ok3 st3] eqn:E. apply sys_ok_spec in E as [D3 T3]. intros H. injection H as H1 <-.
    exists n, tr. rewrite T3. sp; auto. intros p. now rewrite D3.
  - intros H. injection H as <- <-. exists n, tr. sp; auto; discriminate.
  - intros H. injection H as <- <-. exists n, tr. sp; auto; discriminate.
Qed.

Lemma copy_to_bootpart_spec fuel o dsz ss limit img size st r st' : copy_to_bootpart fuel o dsz ss limit img size st = (r, st') ->
  exists tr, io_trace st' = io_trace st ++ tr /\ (forall p, io_disk st' p = play (io_disk st) tr p) /\
    tr_in 0 (clear_end dsz limit) tr /\
    (r = Done tt -> (size = 0 \/ lenN img = size)%N /\ (size <= clear_end dsz limit)%N /\ exists A, tr = A ++ [ESync] /\
       forall d p, play d A p = dwrite (dwrite d 0 (repeat 0%N (N.to_nat (clear_end dsz limit)))) 0 (firstn (N.to_nat size) img) p).
Proof.
  intros H. unfold copy_to_bootpart in H.
  assert (N0 : forall rr st1, io_disk st1 = io_disk st -> io_trace st1 = io_trace st -> rr <> Done tt -> (rr, st1) = (r, st') ->
    exists tr, io_trace st' = io_trace st ++ tr /\ (forall p, io_disk st' p = play (io_disk st) tr p) /\
    tr_in 0 (clear_end dsz limit) tr /\
    (r = Done tt -> (size = 0 \/ lenN img = size)%N /\ (size <= clear_end dsz limit)%N /\ exists A, tr = A ++ [ESync] /\
       forall d p, play d A p = dwrite (dwrite d 0 (repeat 0%N (N.to_nat (clear_end dsz limit)))) 0 (firstn (N.to_nat size) img) p)).
  { intros rr st1 D T ND E. injection E as <- <-. exists []. rewrite app_nil_r, D. sp; auto; [apply tr_in_nil|contradiction]. }
  destruct (sys_ok o st) as [ok1 st1] eqn:E1. apply sys_ok_spec in E1 as [D1 T1].
  destruct ok1; cbn [negb] in H; [|eapply N0; [exact D1|exact T1| |exact H]; discriminate].
  destruct (sys_ok o st1) as [ok2 st2] eqn:E2. apply sys_ok_spec in E2 as [D2 T2]. rewrite D1 in D2. rewrite T1 in T2.
  destruct ok2; cbn [negb] in H; [|eapply N0; [exact D2|exact T2| |exact H]; discriminate].
  destruct (clear_slot fuel o dsz limit st2) as [r3 st3] eqn:E3. apply clear_slot_spec in E3.
  destruct E3 as (n & tr1 & Tr1 & C1 & P1 & B1 & R1). rewrite T2 in Tr1. rewrite D2 in P1.
  assert (I1 : tr_in 0 (clear_end dsz limit) tr1) by (eapply consecutive_in; [exact C1|rewrite lenN_repeat; lia]).
  destruct r3 as [[]| |].
  2,3: injection H as <- <-; exists tr1; sp; auto; discriminate.
  destruct (copy_to_dev fuel o dsz ss limit img size st3) as [r4 st4] eqn:E4. unfold copy_to_dev in E4.
  assert (N3 : forall rr st5, io_disk st5 = io_disk st3 -> io_trace st5 = io_trace st3 -> rr <> Done tt -> (rr, st5) = (r, st') ->
    exists tr, io_trace st' = io_trace st ++ tr /\ (forall p, io_disk st' p = play (io_disk st) tr p) /\
    tr_in 0 (clear_end dsz limit) tr /\
    (r = Done tt -> (size = 0 \/ lenN img = size)%N /\ (size <= clear_end dsz limit)%N /\ exists A, tr = A ++ [ESync] /\
       forall d p, play d A p = dwrite (dwrite d 0 (repeat 0%N (N.to_nat (clear_end dsz limit)))) 0 (firstn (N.to_nat size) img) p)).
  { intros rr st5 D T ND E. injection E as <- <-. exists tr1. sp; auto; [now rewrite T|intros p; now rewrite D|contradiction]. }
  destruct (sys_ok o st3) as [ok5 st5] eqn:E5. apply sys_ok_spec in E5 as [D5 T5].
  destruct ok5; cbn [negb] in E4.
  2:{ injection E4 as <- <-. eapply N3; [exact D5|exact T5| |exact H]. discriminate. }
  destruct (check_image_size dsz limit size) eqn:CK; cbn [negb] in E4.
  2:{ injection E4 as <- <-. eapply N3; [exact D5|exact T5| |exact H]. discriminate. }
  assert (SE : (size <= clear_end dsz limit)%N).
  { unfold check_image_size in CK. apply andb_true_iff in CK as [K1 K2]. rewrite negb_true_iff in *. apply N.ltb_ge in K2.
    unfold clear_end. destruct (0 <? limit)%N; [|exact K2]. cbn [andb] in K1. apply N.ltb_ge in K1. lia. }
  destruct (copy_raw_image fuel o dsz ss img size 0 0 st5) as [r6 st6] eqn:E6. apply copy_raw_spec in E6.
  destruct E6 as (tr2 & Tr2 & P2 & done & SH & R2). cbn [N.to_nat firstn skipn] in SH. apply raw_shape_plain in SH. destruct SH as [I2 SH].
  rewrite N.add_0_l in I2. rewrite T5, Tr1, <- app_assoc in Tr2. rewrite D5 in P2.
  assert (I12 : tr_in 0 (clear_end dsz limit) (tr1 ++ tr2)).
  { apply tr_in_app. split; [exact I1|]. eapply tr_in_weaken; [| |exact I2]; lia. }
  assert (P12 : forall p, io_disk st6 p = play (io_disk st) (tr1 ++ tr2) p).
  { intros p. rewrite P2, play_app. apply play_ext, P1. }
  assert (N6 : forall rr st7, io_disk st7 = io_disk st6 -> io_trace st7 = io_trace st6 -> rr <> Done tt -> (rr, st7) = (r, st') ->
    exists tr, io_trace st' = io_trace st ++ tr /\ (forall p, io_disk st' p = play (io_disk st) tr p) /\
    tr_in 0 (clear_end dsz limit) tr /\
    (r = Done tt -> (size = 0 \/ lenN img = size)%N /\ (size <= clear_end dsz limit)%N /\ exists A, tr = A ++ [ESync] /\
       forall d p, play d A p = dwrite (dwrite d 0 (repeat 0%N (N.to_nat (clear_end dsz limit)))) 0 (firstn (N.to_nat size) img) p)).
  { intros rr st7 D T ND E. injection E as <- <-. exists (tr1 ++ tr2). sp; auto; [now rewrite T|intros p; now rewrite D|contradiction]. }
  destruct r6 as [[]| |].
  2,3: injection E4 as <- <-; eapply N6; [| | |exact H]; auto; discriminate.
  destruct (sys_ok o st6) as [ok7 st7] eqn:E7. apply sys_ok_spec in E7 as [D7 T7]. injection E4 as E4 <-.
  destruct ok7; subst r4; [|eapply N6; [exact D7|exact T7| |exact H]; discriminate].
  destruct (sys_ok o st7) as [ok8 st8] eqn:E8. apply sys_ok_spec in E8 as [D8 T8]. rewrite D7 in D8. rewrite T7 in T8.
  destruct ok8; cbn [negb] in H; [|eapply N6; [exact D8|exact T8| |exact H]; discriminate].
  destruct (sys_ok o st8) as [ok9 st9] eqn:E9. apply sys_ok_spec in E9 as [D9 T9]. rewrite D8 in D9. rewrite T8 in T9.
  destruct ok9; [|eapply N6; [exact D9|exact T9| |exact H]; discriminate].
  injection H as <- <-. destruct (SH (R2 eq_refl)) as (body & -> & CB & FS).
  exists (tr1 ++ body ++ [ESync]). rewrite T9, D9. sp; auto. intros _. sp; auto.
  exists (tr1 ++ body). split; [now rewrite app_assoc|]. intros d p. rewrite play_app, (consecutive_play _ _ _ CB). apply dwrite_ext.
  rewrite (consecutive_play _ _ _ C1). rewrite <- (R1 eq_refl), Nat2N.id. reflexivity.
Qed.

Lemma e_ok_spec o e b e' : e_ok o e = (b, e') -> e_cfg e' = e_cfg e /\ e_part e' = e_part e /\ e_trace e' = e_trace e /\ e_writes e' = e_writes e.
Proof. unfold e_ok. intros H. injection H as <- <-. auto. Qed.
Lemma write_cfg_spec o v e b e' : write_cfg o v e = (b, e') -> e_part e' = e_part e /\ e_trace e' = e_trace e /\
  ((e_cfg e' = v /\ e_writes e' = e_writes e ++ [(fun i => List.length (e_trace e i), v)]) \/ (e_cfg e' = e_cfg e /\ e_writes e' = e_writes e)).
Proof.
  unfold write_cfg. destruct (e_ok o e) as [ok e1] eqn:E1. apply e_ok_spec in E1 as (C1 & P1 & T1 & W1).
  destruct (e_ok o e1) as [hit e2] eqn:E2. apply e_ok_spec in E2 as (C2 & P2 & T2 & W2).
  intros H. injection H as <- <-. destruct hit; cbn.
  - rewrite P2, P1, T2, T1, W2, W1. auto.
  - rewrite P2, P1, T2, T1, W2, W1, C2, C1. auto.
Qed.
Lemma upd_same {A} (f : nat -> A) i x : upd f i x i = x. Proof. unfold upd. now rewrite Nat.eqb_refl. Qed.
Lemma upd_other {A} (f : nat -> A) i j x : j <> i -> upd f i x j = f j. Proof. unfold upd. intros H. now destruct (Nat.eqb_spec j i). Qed.
Lemma crash_at_nil n ss d0 d' x : crash_at n ss d0 [] d' -> d' x = d0 x.
Proof. intros (b & p & rest & E & L & N & C). eapply crash_nil. exists b, p, rest. eauto. Qed.

Lemma c23_emmc_ok : forall fuel o dsz ss limit img size cfg0 d0 r e',
  (cfg0 < 256)%N ->
  emmc_handler fuel o dsz ss limit img size (mkEmmc 0 cfg0 d0 (fun _ => []) []) = (r, e') ->
  (e_part e' = d0 /\ (forall i, e_trace e' i = []) /\ e_writes e' = [] /\ e_cfg e' = cfg0 /\ r <> Done tt) \/
  exists q, (* the partition that is not booted; partition 0 if none is enabled *)
    (boot_field cfg0 = 0 /\ q = 0%nat \/ boot_field cfg0 = 1 /\ q = 1%nat \/ boot_field cfg0 = 2 /\ q = 0%nat)%N /\
    (* only this partition is written *)
    (forall i, i <> q -> e_trace e' i = [] /\ e_part e' i = d0 i) /\
    (* at every crash point *)
    (forall d' cfg', emmc_crash ss d0 cfg0 e' d' cfg' ->
       (forall i p, i <> q -> d' i p = d0 i p) /\
       (cfg' = cfg0 \/
        boot_field cfg' = (N.of_nat q + 1)%N /\ boot_ack cfg' = boot_ack cfg0 /\
        dread (d' q) 0 (List.length (firstn (N.to_nat size) img)) = firstn (N.to_nat size) img /\ (size = 0 \/ lenN img = size)%N)) /\
    (* after success *)
    (r = Done tt ->
       dread (e_part e' q) 0 (List.length (firstn (N.to_nat size) img)) = firstn (N.to_nat size) img /\ (size = 0 \/ lenN img = size)%N /\
       (boot_field cfg0 <> 0%N -> boot_field (e_cfg e') = (N.of_nat q + 1)%N /\ boot_ack (e_cfg e') = boot_ack cfg0)).
Proof.
  intros fuel o dsz ss limit img size cfg0 d0 r e' B H. unfold emmc_handler in H.
  destruct (e_ok o _) as [ok e1] eqn:E1. apply e_ok_spec in E1 as (C1 & P1 & T1 & W1). cbn in C1, P1, T1, W1.
  destruct ok; cbn [negb] in H; [|injection H as <- <-; left; rewrite T1; sp; auto; discriminate].
  rewrite C1 in H. pose proof (read_bootpart_spec cfg0 B) as RB.
  assert (X : match read_bootpart cfg0 with BpError => None | BpNone => Some 1 | BpPart i => Some i end = None \/
    exists act, match read_bootpart cfg0 with BpError => None | BpNone => Some 1 | BpPart i => Some i end = Some act /\ act < 2 /\
      (boot_field cfg0 = 0 /\ inactive_part act = 0%nat \/ boot_field cfg0 = 1 /\ inactive_part act = 1%nat \/ boot_field cfg0 = 2 /\ inactive_part act = 0%nat)%N /\
      (boot_field cfg0 <> 0%N -> read_bootpart cfg0 = BpPart act)).
  { destruct (read_bootpart cfg0) as [|i|] eqn:Q.
    - right. exists 1. destruct (boot_field cfg0) as [|[[?|?|]|[?|?|]|]] eqn:F; try discriminate. sp; auto; try lia; left; split; reflexivity.
    - right. exists i. destruct (boot_field cfg0) as [|[[?|?|]|[?|?|]|]] eqn:F; try discriminate; injection RB as ->; sp; auto; try lia; try (left; split; reflexivity); right; try (left; split; reflexivity); right; split; reflexivity.
    - now left. }
  destruct X as [X|(act & X & A2 & F & RBA)]; rewrite X in H; [injection H as <- <-; left; rewrite T1; sp; auto; discriminate|].
  set (q := inactive_part act) in *.
  assert (QV : q = 0 \/ q = 1) by (clear - F; intuition).
  assert (QA : q <> act) by (unfold q, inactive_part; destruct act as [|[|]]; cbn; lia).
  right. exists q. split; [exact F|].
  unfold e_lift in H. unfold e_io in H. rewrite P1, T1, C1 in H.
  destruct (copy_to_bootpart fuel o dsz ss limit img size (mkIo (e_k e1) (d0 q) [])) as [r2 st2] eqn:CP. apply copy_to_bootpart_spec in CP.
  cbn [io_trace io_disk] in CP. destruct CP as (tr & T2 & D2 & I2 & R2). cbn [app] in T2.
  set (e2 := mkEmmc (io_k st2) cfg0 (upd d0 q (io_disk st2)) (upd (fun _ => []) q (io_trace st2)) (e_writes e1)) in *.
  assert (OTH : forall e, e_trace e = e_trace e2 -> e_part e = e_part e2 -> forall i, i <> q -> e_trace e i = [] /\ e_part e i = d0 i).
  { intros e TE PE i Hi. rewrite TE, PE. cbn. now rewrite !upd_other by exact Hi. }
  assert (CRO : forall e d' cfg', e_trace e = e_trace e2 -> emmc_crash ss d0 cfg0 e d' cfg' -> forall i p, i <> q -> d' i p = d0 i p).
  { intros e d' cfg' TE (n & C & _) i p Hi. specialize (C i). rewrite TE in C. cbn in C. rewrite upd_other in C by exact Hi. eapply crash_at_nil, C. }
  (* no register write: nothing but the inactive partition changes *)
  assert (STOP : forall rr e, e_trace e = e_trace e2 -> e_part e = e_part e2 -> e_writes e = [] -> rr <> Done tt -> (rr, e) = (r, e') ->
    (forall i, i <> q -> e_trace e' i = [] /\ e_part e' i = d0 i) /\
    (forall d' cfg', emmc_crash ss d0 cfg0 e' d' cfg' ->
       (forall i p, i <> q -> d' i p = d0 i p) /\
       (cfg' = cfg0 \/
        boot_field cfg' = (N.of_nat q + 1)%N /\ boot_ack cfg' = boot_ack cfg0 /\
        dread (d' q) 0 (List.length (firstn (N.to_nat size) img)) = firstn (N.to_nat size) img /\ (size = 0 \/ lenN img = size)%N)) /\
    (r = Done tt ->
       dread (e_part e' q) 0 (List.length (firstn (N.to_nat size) img)) = firstn (N.to_nat size) img /\ (size = 0 \/ lenN img = size)%N /\
       (boot_field cfg0 <> 0%N -> boot_field (e_cfg e') = (N.of_nat q + 1)%N /\ boot_ack (e_cfg e') = boot_ack cfg0))).
  { intros rr e TE PE WE ND E. injection E as <- <-. split; [now apply OTH|]. split; [|contradiction].
    intros d' cfg' C. split; [eapply CRO; eassumption|]. left. destruct C as (n & _ & [->|(pos & K & _)]); [reflexivity|]. rewrite WE in K. destruct K. }
  destruct r2 as [[]| |].
  2,3: eapply STOP; [| | | |exact H]; auto; discriminate.
  destruct (R2 eq_refl) as (FS & SE & A & -> & PA). clear R2.
  destruct (e_ok o e2) as [ok3 e3] eqn:E3. apply e_ok_spec in E3 as (C3 & P3 & T3 & W3). cbn [e_cfg e2 e_writes] in C3, W3. rewrite W1 in W3.
  destruct ok3; cbn [negb] in H; [|eapply STOP; [| | | |exact H]; auto; discriminate].
  rewrite C3 in H. destruct (write_cfg o (bootpart_value cfg0 q) e3) as [ok4 e4] eqn:E4. apply write_cfg_spec in E4 as (P4 & T4 & X4).
  rewrite P3 in P4. rewrite T3 in T4. rewrite W3, C3 in X4. cbn [app] in X4.
  assert (DATA : forall d, (forall p, d p = play (d0 q) A p) -> dread d 0 (List.length (firstn (N.to_nat size) img)) = firstn (N.to_nat size) img).
  { intros d Hd. rewrite <- (dread_dwrite_same (dwrite (d0 q) 0 (repeat 0%N (N.to_nat (clear_end dsz limit)))) 0 (firstn (N.to_nat size) img)) at 2.
    apply dread_ext. intros p _. rewrite Hd. apply PA. }
  destruct (bootpart_value_spec cfg0 q B QV) as (V1 & V2 & V3).
  (* facts for every later state *)
  assert (LATE : forall e, e_trace e = e_trace e4 -> e_part e = e_part e4 -> e_writes e = e_writes e4 ->
    (forall i, i <> q -> e_trace e i = [] /\ e_part e i = d0 i) /\
    (forall d' cfg', emmc_crash ss d0 cfg0 e d' cfg' ->
       (forall i p, i <> q -> d' i p = d0 i p) /\
       (cfg' = cfg0 \/
        boot_field cfg' = (N.of_nat q + 1)%N /\ boot_ack cfg' = boot_ack cfg0 /\
        dread (d' q) 0 (List.length (firstn (N.to_nat size) img)) = firstn (N.to_nat size) img /\ (size = 0 \/ lenN img = size)%N))).
  { intros e TE PE WE. rewrite T4 in TE. rewrite P4 in PE. split; [now apply OTH|].
    intros d' cfg' C. split; [eapply CRO; eassumption|].
    destruct C as (n & C & [->|(pos & K & LE)]); [now left|]. rewrite WE in K. destruct X4 as [[_ X4]|[_ X4]]; rewrite X4 in K; [|destruct K].
    destruct K as [K|[]]. injection K as <- <-. right. sp; auto. apply DATA. intros p.
    specialize (C q). specialize (LE q). rewrite T3 in LE. rewrite TE in C. cbn [e2 e_trace] in C, LE. rewrite upd_same, T2 in C, LE. exact (crash_at_full _ _ _ _ _ C LE p). }
  assert (PQ : forall e, e_part e = e_part e4 -> dread (e_part e q) 0 (List.length (firstn (N.to_nat size) img)) = firstn (N.to_nat size) img).
  { intros e PE. apply DATA. intros p. rewrite PE, P4. cbn [e2 e_part]. rewrite upd_same, D2, play_app. reflexivity. }
  assert (FIN : forall rr e, e_trace e = e_trace e4 -> e_part e = e_part e4 -> e_writes e = e_writes e4 ->
    (rr = Done tt -> boot_field cfg0 <> 0%N -> boot_field (e_cfg e) = (N.of_nat q + 1)%N /\ boot_ack (e_cfg e) = boot_ack cfg0) -> (rr, e) = (r, e') ->
    (forall i, i <> q -> e_trace e' i = [] /\ e_part e' i = d0 i) /\
    (forall d' cfg', emmc_crash ss d0 cfg0 e' d' cfg' ->
       (forall i p, i <> q -> d' i p = d0 i p) /\
       (cfg' = cfg0 \/
        boot_field cfg' = (N.of_nat q + 1)%N /\ boot_ack cfg' = boot_ack cfg0 /\
        dread (d' q) 0 (List.length (firstn (N.to_nat size) img)) = firstn (N.to_nat size) img /\ (size = 0 \/ lenN img = size)%N)) /\
    (r = Done tt ->
       dread (e_part e' q) 0 (List.length (firstn (N.to_nat size) img)) = firstn (N.to_nat size) img /\ (size = 0 \/ lenN img = size)%N /\
       (boot_field cfg0 <> 0%N -> boot_field (e_cfg e') = (N.of_nat q + 1)%N /\ boot_ack (e_cfg e') = boot_ack cfg0))).
  { intros rr e TE PE WE BF E. injection E as <- <-. destruct (LATE e TE PE WE) as [L1 L2]. split; [exact L1|]. split; [exact L2|].
    intros R. sp; auto. }
  destruct ok4; cbn [negb] in H; [|eapply FIN; [| | | |exact H]; auto; discriminate].
  destruct (e_ok o e4) as [ok5 e5] eqn:E5. apply e_ok_spec in E5 as (C5 & P5 & T5 & W5).
  destruct ok5; cbn [negb] in H; [|eapply FIN; [| | | |exact H]; auto; discriminate].
  rewrite C5 in H.
  (* the read-back value *)
  assert (RBV : boot_field cfg0 <> 0%N -> (e_cfg e4 = bootpart_value cfg0 q \/ read_bootpart (e_cfg e4) = BpPart act)).
  { intros NZ. destruct X4 as [[-> _]|[-> _]]; [now left|right; now apply RBA]. }
  destruct (read_bootpart (e_cfg e4)) as [|af|] eqn:RB4.
  - eapply FIN; [exact T5|exact P5|exact W5| |exact H]. intros _ NZ. rewrite C5. destruct (RBV NZ) as [->|?]; [auto|discriminate].
  - destruct (Nat.eqb_spec act af) as [EQ|NE].
    + eapply FIN; [exact T5|exact P5|exact W5| |exact H]. discriminate.
    + eapply FIN; [exact T5|exact P5|exact W5| |exact H]. intros _ NZ. rewrite C5. destruct (RBV NZ) as [->|E]; [auto|]. injection E as ->. contradiction.
  - eapply FIN; [exact T5|exact P5|exact W5| |exact H]. discriminate.
Qed.

(** a boot field that is neither unset nor partition 0 or 1 (user area, reserved) is refused *)
Lemma c23_reject_ok : forall fuel o dsz ss limit img size cfg0 d0 r e',
  (cfg0 < 256)%N -> (2 < boot_field cfg0)%N ->
  emmc_handler fuel o dsz ss limit img size (mkEmmc 0 cfg0 d0 (fun _ => []) []) = (r, e') ->
  r = Failed /\ e_part e' = d0 /\ (forall i, e_trace e' i = []) /\ e_writes e' = [] /\ e_cfg e' = cfg0.
Proof.
  intros fuel o dsz ss limit img size cfg0 d0 r e' B F H. unfold emmc_handler in H.
  destruct (e_ok o _) as [ok e1] eqn:E1. apply e_ok_spec in E1 as (C1 & P1 & T1 & W1). cbn in C1, P1, T1, W1.
  destruct ok; cbn [negb] in H; [|injection H as <- <-; rewrite T1; sp; auto].
  rewrite C1, (read_bootpart_spec cfg0 B) in H.
  assert (X : match boot_field cfg0 with 0%N => BpNone | 1%N => BpPart 0 | 2%N => BpPart 1 | _ => BpError end = BpError).
  { destruct (boot_field cfg0) as [|[[?|?|]|[?|?|]|]]; try lia; reflexivity. }
  rewrite X in H. injection H as <- <-. rewrite T1. sp; auto.
Qed.

(** reading back gives the partition just written, whatever the register was *)
Lemma c23_readback_ok : forall cfg i, (cfg < 256)%N -> i = 0 \/ i = 1 -> read_bootpart (bootpart_value cfg i) = BpPart i.
Proof.
  intros cfg i B I. destruct (bootpart_value_spec cfg i B I) as (V1 & _ & V3). rewrite (read_bootpart_spec _ V3), V1.
  destruct I as [->| ->]; reflexivity.
Qed.

(** if no partition was enabled before, a register write without effect goes unnoticed *)
Lemma c23_unset_refuted : exists fuel o dsz ss limit img size cfg0 d0 e',
  (cfg0 < 256)%N /\ emmc_handler fuel o dsz ss limit img size (mkEmmc 0 cfg0 d0 (fun _ => []) []) = (Done tt, e') /\
  boot_field (e_cfg e') = 0%N.
Proof.
  exists 20, (fun k => if Nat.eqb k 20 then SFail else SCount 4096), 2048%N, 512%N, 0%N, [1; 2; 3]%N, 3%N, 0%N, (fun _ _ => 0%N).
  eexists (snd _). split; [lia|]. split; [apply (MbrRefuted.run_done (A := out unit)); vm_compute; reflexivity|]. vm_compute. reflexivity.
Qed.
