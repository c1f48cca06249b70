From Verif Require Import Base Disk DiskLemmas ExactIO ExactIOSpec ExactIOProofs BootRegion BootRegionSpec.

(** ** traces and crashes *)
Definition tr_in (lo hi : N) (tr : list ev) : Prop :=
  forall e, In e tr -> match e with EW off l => l = [] \/ (lo <= off /\ off + lenN l <= hi)%N | ESync => True end.

Lemma tr_in_app lo hi a b : tr_in lo hi (a ++ b) <-> tr_in lo hi a /\ tr_in lo hi b.
Proof. unfold tr_in. split.
  - intros H; split; intros e He; apply H, in_or_app; auto.
  - intros [A B] e He. apply in_app_or in He as [?|?]; [now apply A|now apply B].
Qed.
Lemma tr_in_nil lo hi : tr_in lo hi []. Proof. intros e []. Qed.
Lemma tr_in_sync lo hi : tr_in lo hi [ESync]. Proof. intros e [<-|[]]. exact I. Qed.
Lemma tr_in_weaken lo hi lo' hi' tr : (lo' <= lo)%N -> (hi <= hi')%N -> tr_in lo hi tr -> tr_in lo' hi' tr.
Proof. intros A B H e He. specialize (H e He). destruct e; [|exact I]. intuition lia. Qed.
Lemma tr_in_firstn lo hi tr k : tr_in lo hi tr -> tr_in lo hi (firstn k tr).
Proof. intros H. rewrite <- (firstn_skipn k tr) in H. now apply tr_in_app in H. Qed.
Lemma tr_in_play lo hi tr : tr_in lo hi tr -> forall d p, ~ (lo <= p < hi)%N -> play d tr p = d p.
Proof.
  induction tr as [|e tr IH]; intros H d p Hp; [reflexivity|]. rewrite play_cons, IH; [|intros x Hx; apply H; now right|exact Hp].
  specialize (H e (or_introl eq_refl)). destruct e as [off l|]; [|reflexivity]. cbn. destruct H as [->|H]; [apply dwrite_nil|].
  apply dwrite_out. lia.
Qed.
Lemma consecutive_in off tr l hi : consecutive off tr l -> (off + lenN l <= hi)%N -> tr_in off hi tr.
Proof.
  intros H. induction H as [|off a tr l H IH]; intros B; [apply tr_in_nil|]. rewrite lenN_app in B.
  intros e [<-|He]; [right; lia|]. revert e He. eapply tr_in_weaken; [| |apply IH]; lia.
Qed.
Lemma consecutive_nosync off tr l : consecutive off tr l -> ~ In ESync tr.
Proof. induction 1; [intros []|]. intros [E|E]; [discriminate|contradiction]. Qed.

Lemma crash_in lo hi ss d0 tr d' : tr_in lo hi tr -> crash ss d0 tr d' -> same_outside lo hi d0 d'.
Proof.
  intros H (b & p & rest & -> & _ & C) x Hx. destruct (C (x / ss)%N) as [k Ck]. rewrite Ck by reflexivity.
  eapply tr_in_play; [|exact Hx]. rewrite !tr_in_app in H. rewrite tr_in_app. split; [tauto|]. now apply tr_in_firstn.
Qed.

(** a crash either loses the fsync and everything behind, or happens after it *)
Lemma crash_sync ss d0 A B d' : crash ss d0 (A ++ ESync :: B) d' -> crash ss d0 A d' \/ crash ss (play d0 A) B d'.
Proof.
  intros (b & p & rest & E & NS & C).
  destruct (le_lt_dec (List.length b) (List.length A)) as [L|L].
  - left. (* b is a prefix of A *)
    assert (PA : exists A2, A = b ++ A2).
    { exists (skipn (List.length b) A). rewrite <- (firstn_skipn (List.length b) A) at 1. f_equal.
      apply (f_equal (firstn (List.length b))) in E. rewrite firstn_app, firstn_app in E.
      rewrite firstn_all, Nat.sub_diag in E. cbn in E. rewrite app_nil_r in E.
      replace (List.length b - List.length A) with 0 in E by lia. cbn in E. now rewrite app_nil_r in E. }
    destruct PA as [A2 ->]. rewrite <- app_assoc in E. apply app_inv_head in E.
    destruct (le_lt_dec (List.length p) (List.length A2)) as [L2|L2].
    + assert (PB : exists A3, A2 = p ++ A3).
      { exists (skipn (List.length p) A2). rewrite <- (firstn_skipn (List.length p) A2) at 1. f_equal.
        apply (f_equal (firstn (List.length p))) in E. rewrite firstn_app, firstn_app in E.
        rewrite firstn_all, Nat.sub_diag in E. cbn in E. rewrite app_nil_r in E.
        replace (List.length p - List.length A2) with 0 in E by lia. cbn in E. now rewrite app_nil_r in E. }
      destruct PB as [A3 ->]. exists b, p, A3. auto.
    + exfalso. apply NS. apply (f_equal (fun l => nth (List.length A2) l (EW 0 []))) in E.
      rewrite app_nth2, Nat.sub_diag in E by lia. cbn in E. rewrite app_nth1 in E by lia. rewrite E. now apply nth_In.
  - right. assert (PB : exists b2, b = A ++ ESync :: b2).
    { exists (skipn (S (List.length A)) b). rewrite <- (firstn_skipn (S (List.length A)) b) at 1.
      assert (F : firstn (S (List.length A)) b = A ++ [ESync]).
      { apply (f_equal (firstn (S (List.length A)))) in E. rewrite firstn_app in E. rewrite firstn_all2 in E by lia.
        replace (S (List.length A) - List.length A) with 1 in E by lia. change (firstn 1 (ESync :: B)) with [ESync] in E. rewrite E.
        rewrite firstn_app. replace (S (List.length A) - List.length b) with 0 by lia. rewrite firstn_O. now rewrite app_nil_r. }
      rewrite F, <- app_assoc. reflexivity. }
    destruct PB as [b2 ->]. rewrite <- app_assoc in E. apply app_inv_head in E. cbn in E. injection E as E.
    exists b2, p, rest. split; [exact E|]. split; [exact NS|]. intros s. destruct (C s) as [k Ck]. exists k. intros x Hx.
    rewrite Ck by exact Hx. rewrite <- !app_assoc, play_app. reflexivity.
Qed.
Lemma crash_nil ss d0 d' x : crash ss d0 [] d' -> d' x = d0 x.
Proof.
  intros (b & p & rest & E & _ & C). destruct (C (x / ss)%N) as [k Ck]. symmetry in E. apply app_eq_nil in E as [-> E]. apply app_eq_nil in E as [-> _].
  rewrite Ck by reflexivity. now rewrite firstn_nil.
Qed.
(** one write *)
Lemma crash_one ss d0 off l d' : crash ss d0 [EW off l] d' ->
  forall s : N, (forall x, (x / ss = s)%N -> d' x = d0 x) \/ (forall x, (x / ss = s)%N -> d' x = dwrite d0 off l x).
Proof.
  intros (b & p & rest & E & _ & C) s. destruct (C s) as [k Ck]. destruct b as [|e b].
  - destruct p as [|e p].
    + left. intros x Hx. rewrite Ck by exact Hx. now rewrite firstn_nil.
    + injection E as <- E. symmetry in E. apply app_eq_nil in E as [-> _]. destruct k.
      * left. intros x Hx. now rewrite Ck.
      * right. intros x Hx. rewrite Ck by exact Hx. cbn [firstn]. now rewrite firstn_nil.
  - injection E as <- E. symmetry in E. apply app_eq_nil in E as [-> E]. apply app_eq_nil in E as [-> _].
    right. intros x Hx. rewrite Ck by exact Hx. now rewrite firstn_nil.
Qed.
Lemma crash_ext ss d d1 tr d' : (forall p, d p = d1 p) -> crash ss d tr d' -> crash ss d1 tr d'.
Proof.
  intros H (b & p & rest & E & NS & C). exists b, p, rest. split; [exact E|]. split; [exact NS|]. intros s. destruct (C s) as [k Ck].
  exists k. intros x Hx. rewrite Ck by exact Hx. now apply play_ext.
Qed.

(** ** clearing *)
Lemma lenN_repeat {A} (x : A) n : lenN (repeat x n) = N.of_nat n.
Proof. unfold lenN. now rewrite repeat_length. Qed.
Lemma firstn_repeat {A} (x : A) n m : firstn n (repeat x m) = repeat x (Nat.min n m).
Proof. revert m. induction n; intros [|m]; cbn; try reflexivity. now rewrite IHn. Qed.

Lemma clear_loop_spec fuel : forall o dsz fdpos size cc cs st r st',
  clear_loop fuel o dsz fdpos size cc cs st = (r, st') -> (size < 2 ^ 32)%N -> (cc <= size)%N -> (cs <= 512)%N ->
  exists n tr, (cc <= n <= size)%N /\ io_trace st' = io_trace st ++ tr /\
    consecutive fdpos tr (repeat 0%N (N.to_nat (n - cc))) /\ (forall p, io_disk st' p = play (io_disk st) tr p) /\
    (r = Done tt -> n = size).
Proof.
  induction fuel as [|f IH]; intros o dsz fdpos size cc cs st r st' H S L C; cbn [clear_loop] in H.
  - destruct (N.ltb_spec cc size); injection H as <- <-; exists cc, []; rewrite app_nil_r, N.sub_diag; cbn [repeat N.to_nat];
      sp; auto; try lia; try constructor; try discriminate.
  - assert (STOP : forall (rr : out unit) k, rr <> Done tt -> (rr, mkIo k (io_disk st) (io_trace st)) = (r, st') ->
      exists n tr, (cc <= n <= size)%N /\ io_trace st' = io_trace st ++ tr /\
      consecutive fdpos tr (repeat 0%N (N.to_nat (n - cc))) /\ (forall p, io_disk st' p = play (io_disk st) tr p) /\ (r = Done tt -> n = size)).
    { intros rr k ND E. injection E as <- <-. exists cc, []. cbn. rewrite app_nil_r, N.sub_diag. sp; auto; try lia; try constructor. contradiction. }
    destruct (N.ltb_spec cc size) as [LT|GE].
    + set (cs' := if (size - cc <? 512)%N then (size - cc)%N else cs) in *.
      assert (CS : (cs' <= 512 /\ cs' <= size - cc)%N) by (unfold cs'; destruct (N.ltb_spec (size - cc) 512); lia).
      unfold sys_pwrite in H. destruct (o (io_k st)) as [| |c].
      * eapply STOP; [|exact H]. discriminate.
      * eapply STOP; [|exact H]. discriminate.
      * destruct (N.leb_spec dsz fdpos); [eapply STOP; [|exact H]; discriminate|].
        rewrite lenN_repeat, N2Nat.id, firstn_repeat in H. set (n := N.min c (N.min cs' (dsz - fdpos))) in *.
        replace (Nat.min (N.to_nat n) (N.to_nat cs')) with (N.to_nat n) in H by lia.
        rewrite (N.mod_small (cc + n)) in H by lia.
        apply IH in H; try lia. destruct H as (m & tr & M & T & CT & D & R). cbn [io_trace io_disk] in *.
        exists m, (EW fdpos (repeat 0%N (N.to_nat n)) :: tr). sp; auto; try lia.
        -- rewrite T. now rewrite <- app_assoc.
        -- replace (repeat 0%N (N.to_nat (m - cc))) with (repeat 0%N (N.to_nat n) ++ repeat 0%N (N.to_nat (m - (cc + n)))).
           ++ constructor. rewrite lenN_repeat, N2Nat.id. exact CT.
           ++ rewrite <- repeat_app. f_equal. lia.
    + injection H as <- <-. exists cc, []. rewrite app_nil_r, N.sub_diag. cbn [repeat N.to_nat]. sp; auto; try lia; try constructor.
Qed.

Lemma sys_ok_spec o st b st' : sys_ok o st = (b, st') -> io_disk st' = io_disk st /\ io_trace st' = io_trace st.
Proof. unfold sys_ok. intros H. injection H as <- <-. auto. Qed.

Lemma clear_part_spec fuel o dsz bp st r st' : clear_part fuel o dsz bp st = (r, st') -> (bp_size bp < 2 ^ 32)%N ->
  exists n tr, (n <= bp_size bp)%N /\ io_trace st' = io_trace st ++ tr /\
    consecutive (bp_start bp) tr (repeat 0%N (N.to_nat n)) /\ (forall p, io_disk st' p = play (io_disk st) tr p) /\
    (r = Done tt -> n = bp_size bp).
Proof.
  intros H L. unfold clear_part in H. destruct (sys_ok o st) as [ok st1] eqn:E. apply sys_ok_spec in E as [D1 T1].
  assert (N0 : forall rr : out unit, rr <> Done tt -> (rr, st1) = (r, st') -> exists n tr, (n <= bp_size bp)%N /\ io_trace st' = io_trace st ++ tr /\
    consecutive (bp_start bp) tr (repeat 0%N (N.to_nat n)) /\ (forall p, io_disk st' p = play (io_disk st) tr p) /\ (r = Done tt -> n = bp_size bp)).
  { intros rr ND X. injection X as <- <-. exists 0%N, []. rewrite app_nil_r. cbn. sp; auto; try lia; try constructor. - now rewrite D1. - contradiction. }
  destruct ok; cbn [negb] in H; [|eapply N0; [|exact H]; discriminate].
  destruct (lseek_ok dsz (bp_start bp)); cbn [negb] in H; [|eapply N0; [|exact H]; discriminate].
  apply clear_loop_spec in H; try lia. destruct H as (n & tr & N & T & C & D & R). rewrite N.sub_0_r in C.
  exists n, tr. sp; auto; try lia.
  - now rewrite T, T1.
  - intros p. rewrite D. now rewrite D1.
Qed.

(** ** copy_raw_image *)
(** shape of the events of copy_raw_image: body, then (optionally) fsync, header, fsync; [at1]: the header is
    transferred by a single write *)
Definition raw_shape (at1 : Prop) (pos size : N) (img header rest0 : list byte) (tr : list ev) (done : bool) : Prop :=
  exists body l tl, tr = body ++ tl /\ consecutive (pos + lenN header) body l /\ (exists r2, rest0 = l ++ r2) /\ (lenN l <= size)%N /\
    ((tl = [] /\ done = false) \/
     (firstn (N.to_nat size) img = header ++ l /\ (size = 0 \/ lenN img = size)%N /\
      ((header = [] /\ tl = [ESync] /\ done = true) \/
       exists ht m fin, header <> [] /\ tl = ESync :: ht ++ fin /\ (m <= lenN header)%N /\ consecutive pos ht (firstn (N.to_nat m) header) /\ (at1 -> ht = [] \/ ht = [EW pos header]) /\
         ((fin = [] /\ done = false) \/ (fin = [ESync] /\ m = lenN header /\ done = true))))) .

Definition is_done {A} (r : out A) : bool := match r with Done _ => true | _ => false end.

Definition one_write (o : oracle) (dsz pos hl : N) : Prop := whole_sectors o /\ (hl <= 512)%N /\ (pos + hl <= dsz)%N.
Lemma pwrite_one fuel : forall o dsz off data st r st', one_write o dsz off (lenN data) ->
  pwrite_exact fuel o dsz off data st = (r, st') -> io_trace st' = io_trace st \/ io_trace st' = io_trace st ++ [EW off data].
Proof.
  intros o dsz off data st r st' (W & L & D). unfold pwrite_exact. revert st. induction fuel as [|f IH]; intros st H; cbn [pwrite_loop] in H.
  - destruct (0 <? lenN data)%N; injection H as <- <-; auto.
  - destruct (N.ltb_spec 0 (lenN data)); [|injection H as <- <-; auto].
    unfold sys_pwrite in H. rewrite N.add_0_r in H. destruct (o (io_k st)) as [| |c] eqn:O.
    + apply IH in H. exact H.
    + injection H as <- <-. auto.
    + apply W in O. destruct (N.leb_spec dsz off); [lia|]. cbn [skipn N.to_nat] in H.
      replace (N.min c (N.min (lenN data) (dsz - off))) with (lenN data) in H by lia.
      rewrite (firstn_all2 data) in H by (unfold lenN; lia). rewrite N.add_0_l in H.
      destruct f; cbn [pwrite_loop] in H; destruct (N.ltb_spec (lenN data) (lenN data)); try lia; injection H as <- <-; auto.
Qed.

Lemma copy_raw_spec fuel o dsz ss img size hl fdpos st r st' :
  copy_raw_image fuel o dsz ss img size hl fdpos st = (r, st') ->
  exists tr, io_trace st' = io_trace st ++ tr /\ (forall p, io_disk st' p = play (io_disk st) tr p) /\
    exists done, raw_shape (one_write o dsz fdpos hl) fdpos size img (firstn (N.to_nat hl) img) (skipn (N.to_nat hl) img) tr done /\
    (r = Done tt -> done = true).
Proof.
  intros H. unfold copy_raw_image in H.
  set (header := firstn (N.to_nat hl) img) in *. set (rest0 := skipn (N.to_nat hl) img) in *.
  assert (IMG : img = header ++ rest0) by (unfold header, rest0; now rewrite firstn_skipn).
  assert (N0 : forall st1 (rr : out unit), io_disk st1 = io_disk st -> io_trace st1 = io_trace st -> rr <> Done tt -> (rr, st1) = (r, st') ->
    exists tr, io_trace st' = io_trace st ++ tr /\ (forall p, io_disk st' p = play (io_disk st) tr p) /\
      exists done, raw_shape (one_write o dsz fdpos hl) fdpos size img header rest0 tr done /\ (r = Done tt -> done = true)).
  { intros st1 rr D T ND X. injection X as <- <-. exists []. rewrite app_nil_r. split; [exact T|]. split; [intros; now rewrite D|].
    exists false. split; [|contradiction]. exists [], [], []. rewrite lenN_nil. sp; auto; try lia; [constructor|now exists rest0]. }
  destruct (sys_ok o st) as [ok1 st1] eqn:E1. apply sys_ok_spec in E1 as [D1 T1].
  destruct ok1; cbn [negb] in H; [|eapply N0; [exact D1|exact T1| |exact H]; discriminate].
  destruct (negb (hl =? 0) && negb (hl =? ss))%N; [eapply N0; [exact D1|exact T1| |exact H]; discriminate|].
  destruct (if (hl =? 0)%N then (true, st1) else sys_ok o st1) as [ok2 st2] eqn:E2.
  assert (X2 : io_disk st2 = io_disk st /\ io_trace st2 = io_trace st).
  { destruct (hl =? 0)%N; [injection E2 as _ <-; auto|]. apply sys_ok_spec in E2 as [-> ->]. auto. }
  destruct X2 as [D2 T2].
  destruct ok2; cbn [negb] in H; [|eapply N0; [exact D2|exact T2| |exact H]; discriminate].
  destruct (negb (hl =? 0)%N && negb (lseek_ok dsz (fdpos + lenN header))); [eapply N0; [exact D2|exact T2| |exact H]; discriminate|].
  destruct (copy_stream fuel o dsz size rest0 (fdpos + lenN header) st2) as [[cr pos2] st3] eqn:E3.
  apply c18_copy_ok in E3. destruct E3 as (body & l & r2 & RS & LS & T3 & C3 & D3 & B3 & R3). rewrite T2 in T3. rewrite D2 in D3.
  assert (PL : forall p, io_disk st3 p = play (io_disk st) body p) by (intros p; rewrite D3; symmetry; now apply consecutive_play).
  assert (N3 : forall st4 (rr : out unit), io_disk st4 = io_disk st3 -> io_trace st4 = io_trace st3 -> rr <> Done tt -> (rr, st4) = (r, st') ->
    exists tr, io_trace st' = io_trace st ++ tr /\ (forall p, io_disk st' p = play (io_disk st) tr p) /\
      exists done, raw_shape (one_write o dsz fdpos hl) fdpos size img header rest0 tr done /\ (r = Done tt -> done = true)).
  { intros st4 rr D T ND X. injection X as <- <-. exists body. split; [now rewrite T|]. split; [intros; now rewrite D|].
    exists false. split; [|contradiction]. exists body, l, []. rewrite app_nil_r. sp; auto. eauto. }
  destruct cr as [rest| |]; [|eapply N3; [| | |exact H]; auto; discriminate|eapply N3; [| | |exact H]; auto; discriminate].
  destruct (R3 rest eq_refl) as (-> & POS2 & DZ).
  destruct (N.eqb_spec (lenN img - lenN rest) size) as [SZ|]; cbn [negb] in H; [|eapply N3; [| | |exact H]; auto; discriminate].
  (* what was copied *)
  assert (FULL : firstn (N.to_nat size) img = header ++ l /\ (size = 0 \/ lenN img = size)%N /\ (lenN header + lenN l = size)%N).
  { assert (LI : (lenN img = lenN header + lenN l + lenN rest)%N) by (rewrite IMG, RS, !lenN_app; lia).
    assert (SE : (lenN header + lenN l = size)%N) by lia.
    split; [|split; [|exact SE]].
    - rewrite IMG, RS, app_assoc. replace (N.to_nat size) with (List.length (header ++ l)) by (rewrite app_length; unfold lenN in SE; lia).
      now rewrite firstn_app, firstn_all, Nat.sub_diag, firstn_O, app_nil_r.
    - destruct (N.eqb_spec size 0); [now left|]. right. subst rest. rewrite lenN_nil in *. lia. }
  destruct FULL as (FULL & FS & FL).
  assert (FIN : forall st4 tr4 r1 s1, io_trace st4 = io_trace st ++ tr4 -> (forall p, io_disk st4 p = play (io_disk st) tr4 p) ->
    (let '(ok, st5) := sys_ok o st4 in if negb ok then (Failed, st5) else let '(ok, st6) := sys_fsync o st5 in if ok then (Done tt, st6) else (Failed, st6)) = (r1, s1) ->
    (r1 <> Done tt /\ io_trace s1 = io_trace st ++ tr4 /\ (forall p, io_disk s1 p = play (io_disk st) tr4 p)) \/
    (r1 = Done tt /\ io_trace s1 = io_trace st ++ tr4 ++ [ESync] /\ (forall p, io_disk s1 p = play (io_disk st) (tr4 ++ [ESync]) p))).
  { intros st4 tr4 r1 s1 T D X. destruct (sys_ok o st4) as [ok5 st5] eqn:E5. apply sys_ok_spec in E5 as [D5 T5]. destruct ok5; cbn [negb] in X.
    - unfold sys_fsync in X. destruct (o (io_k st5)).
      + injection X as <- <-. left. cbn. rewrite T5, D5. split; [discriminate|auto].
      + injection X as <- <-. left. cbn. rewrite T5, D5. split; [discriminate|auto].
      + injection X as <- <-. right. cbn. rewrite T5, D5, T. split; [reflexivity|]. split; [now rewrite app_assoc|].
        intros p. rewrite play_app. cbn. apply D.
    - injection X as <- <-. left. rewrite T5, D5. split; [discriminate|auto]. }
  destruct header as [|h0 header'] eqn:HD.
  - destruct (FIN st3 body r st' T3 PL H) as [(ND & T & D)|(-> & T & D)].
    + exists body. sp; auto. exists false. split; [|contradiction]. exists body, l, []. rewrite app_nil_r. sp; auto. eauto.
    + exists (body ++ [ESync]). sp; auto. exists true. split; [|auto]. exists body, l, [ESync]. sp; auto; [eauto|]. right. sp; auto.
  - rewrite <- HD in *.
    destruct (sys_fsync o st3) as [ok4 st4] eqn:E4.
    destruct ok4; cbn [negb] in H.
    2:{ assert (X4 : io_disk st4 = io_disk st3 /\ io_trace st4 = io_trace st3).
        { unfold sys_fsync in E4. destruct (o (io_k st3)); try discriminate; injection E4 as E4; subst st4; auto. }
        destruct X4 as [D4 T4]. eapply N3; [exact D4|exact T4| |exact H]. discriminate. }
    assert (F4 : io_disk st4 = io_disk st3 /\ io_trace st4 = io_trace st3 ++ [ESync]).
    { unfold sys_fsync in E4. destruct (o (io_k st3)); try discriminate. injection E4 as E4. subst st4. auto. }
    destruct F4 as [D4 T4].
    assert (HN : header <> []) by (rewrite HD; discriminate).
    assert (P4 : forall p, io_disk st4 p = play (io_disk st) (body ++ [ESync]) p) by (intros p; rewrite D4, play_app; cbn; apply PL).
    destruct (N.ltb_spec pos2 (lenN img - lenN rest)) as [X|X].
    { injection H as <- <-. exists (body ++ [ESync]). split; [now rewrite T4, T3, <- app_assoc|]. split; [exact P4|]. exists false. split; [|discriminate].
      exists body, l, [ESync]. sp; auto; [eauto|]. right. sp; auto. right. exists [], 0%N, []. sp; auto; [lia|constructor]. }
    assert (POS : (pos2 - (lenN img - lenN rest))%N = fdpos) by lia. rewrite POS in H.
    destruct (write_all fuel o dsz fdpos header st4) as [[wr fd5] st5] eqn:W. unfold write_all in W. apply c17_write_ok in W as [W _].
    pose proof W as W0. apply c17_pwrite_ok in W. destruct W as (m & ht & Mm & TW & CW & DW & _ & RW & _).
    assert (T5 : io_trace st5 = io_trace st ++ (body ++ ESync :: ht)).
    { rewrite TW, T4, T3, <- !app_assoc. reflexivity. }
    assert (P5 : forall p, io_disk st5 p = play (io_disk st) (body ++ ESync :: ht) p).
    { intros p. rewrite DW. change (ESync :: ht) with ([ESync] ++ ht). rewrite app_assoc, play_app.
      rewrite (consecutive_play _ _ _ CW). apply dwrite_ext. apply P4. }
    assert (ONE : one_write o dsz fdpos hl -> ht = [] \/ ht = [EW fdpos header]).
    { intros (Q1 & Q2 & Q3). assert (LH : (lenN header <= hl)%N) by (unfold header; rewrite lenN_firstn; lia).
      destruct (pwrite_one fuel o dsz fdpos header st4 _ _ ltac:(split; [exact Q1|lia]) W0) as [X1|X1]; rewrite TW in X1.
      - left. rewrite <- app_nil_r in X1. now apply app_inv_head in X1.
      - right. now apply app_inv_head in X1. }
    assert (SH : forall fin dn, ((fin = [] /\ dn = false) \/ (fin = [ESync] /\ m = lenN header /\ dn = true)) ->
       raw_shape (one_write o dsz fdpos hl) fdpos size img header rest0 (body ++ ESync :: ht ++ fin) dn).
    { intros fin dn F. exists body, l, (ESync :: ht ++ fin). sp; auto; [eauto|]. right. sp; auto. right. exists ht, m, fin. sp; auto. }
    assert (NW : forall rr : out unit, rr <> Done tt -> (rr, st5) = (r, st') -> exists tr, io_trace st' = io_trace st ++ tr /\ (forall p, io_disk st' p = play (io_disk st) tr p) /\
      exists done, raw_shape (one_write o dsz fdpos hl) fdpos size img header rest0 tr done /\ (r = Done tt -> done = true)).
    { intros rr ND E. injection E as <- <-. exists (body ++ ESync :: ht). sp; auto. exists false. split; [|contradiction].
      specialize (SH [] false). rewrite app_nil_r in SH. apply SH. auto. }
    destruct wr as [[]| |]; [|eapply NW; [|exact H]; discriminate|eapply NW; [|exact H]; discriminate].
    specialize (RW eq_refl). destruct (FIN st5 _ r st' T5 P5 H) as [(ND & T & D)|(-> & T & D)].
    + exists (body ++ ESync :: ht). sp; auto. exists false. split; [|contradiction]. specialize (SH [] false). rewrite app_nil_r in SH. apply SH. auto.
    + exists (body ++ ESync :: ht ++ [ESync]).
      replace (body ++ ESync :: ht ++ [ESync]) with ((body ++ ESync :: ht) ++ [ESync]) by now rewrite <- app_assoc.
      sp; auto. exists true. split; [|auto].
      replace ((body ++ ESync :: ht) ++ [ESync]) with (body ++ ESync :: ht ++ [ESync]) by now rewrite <- app_assoc.
      apply SH. right. auto.
Qed.
