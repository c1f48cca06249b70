From Verif Require Import Base BaseLemmas EventLog EventLogSpec.

Lemma rotated_ext n : forall fs fs', (forall k, 1 <= k <= n -> fs' (Rot k) = fs (Rot k)) -> rotated n fs' = rotated n fs.
Proof.
  induction n as [|n IH]; intros fs fs' H; [reflexivity|]. cbn [rotated]. unfold content. rewrite H by lia.
  f_equal. apply IH. intros. apply H. lia.
Qed.

Lemma lset_same fs f c : lset fs f c f = c.
Proof. unfold lset. destruct f; cbn; [reflexivity|now rewrite Nat.eqb_refl]. Qed.
Lemma lset_other fs f c g : g <> f -> lset fs f c g = fs g.
Proof.
  unfold lset. intros H. destruct g, f; cbn; try congruence.
  destruct (Nat.eqb_spec n n0); [subst; congruence|reflexivity].
Qed.

Lemma shift_small n fs o fs' o' st : n <= 1 -> fs (Rot 0) = None -> shift_files n fs o = (fs', o', st) -> fs' = fs.
Proof.
  intros Hn H0 H. destruct n as [|[|n]]; [| |lia]; cbn [shift_files] in H.
  - now injection H as <- <- <-.
  - destruct (next o) as [x o1]. destruct x; [|now injection H as <- <- <-|now injection H as <- <- <-].
    unfold lrename in H. rewrite H0 in H. now injection H as <- <- <-.
Qed.

Lemma view_cur n fs c : view n (lset fs Cur (Some c)) = rotated n fs ++ c.
Proof.
  unfold view. rewrite (rotated_ext n fs) by (intros; now rewrite lset_other by discriminate).
  unfold content. now rewrite lset_same.
Qed.

(** shifting the files 0 .. n-1 to 1 .. n *)
Lemma shift_ok n : forall fs o fs' o' st, fs (Rot 0) = None -> shift_files n fs o = (fs', o', st) ->
  st <> Aborted /\
  fs' Cur = fs Cur /\ fs' (Rot 0) = None /\ (forall k, n < k -> fs' (Rot k) = fs (Rot k)) /\
  exists dropped, rotated n fs = dropped ++ rotated n fs' /\
    (dropped = [] \/ fs (Rot n) = Some dropped) /\
    (st = Done -> 2 <= n -> fs' (Rot 1) = None).
Proof.
  induction n as [|n IH]; intros fs o fs' o' st H0 H.
  { cbn [shift_files] in H. injection H as <- <- <-. split; [discriminate|]. repeat split; auto. exists []. repeat split; auto. lia. }
  assert (SM : n <= 0 -> fs' = fs). { intros. eapply (shift_small (S n)); eauto. lia. }
  cbn [shift_files] in H. destruct (next o) as [x o1]. destruct x.
  2,3: injection H as <- <- <-; split; [discriminate|]; repeat split; auto; exists []; repeat split; auto; discriminate.
  unfold lrename in H. destruct (fs (Rot n)) as [c|] eqn:E.
  - assert (Hn : 1 <= n) by (destruct n; [congruence|lia]).
    set (fs1 := lset (lset fs (Rot (S n)) (Some c)) (Rot n) None) in H.
    assert (FO : forall k, k <> n -> k <> S n -> fs1 (Rot k) = fs (Rot k)).
    { intros k K1 K2. unfold fs1. rewrite lset_other by congruence. now rewrite lset_other by congruence. }
    assert (F0 : fs1 (Rot 0) = None) by (rewrite FO by lia; exact H0).
    assert (SM1 : n <= 1 -> fs' = fs1) by (intros; eapply (shift_small n); eauto).
    apply (IH fs1) in H as (Hst & Hc & Hr0 & Hk & dropped & Hd & Hdr & Hd1); [|exact F0].
    assert (FN : fs1 (Rot n) = None) by apply lset_same.
    assert (FSN : fs1 (Rot (S n)) = Some c).
    { unfold fs1. rewrite lset_other by (intros K; injection K; lia). apply lset_same. }
    assert (dropped = []) by (destruct Hdr as [|Hdr]; [assumption|congruence]).
    subst dropped. cbn [app] in Hd.
    split; [exact Hst|]. split. { rewrite Hc. unfold fs1. rewrite lset_other by discriminate. now rewrite lset_other by discriminate. }
    split; [exact Hr0|]. split. { intros k Hk'. rewrite Hk by lia. apply FO; lia. }
    exists (content fs (Rot (S n))). split; [|split].
    + cbn [rotated]. f_equal. rewrite <- Hd. replace (content fs' (Rot (S n))) with c by (unfold content; rewrite Hk by lia; now rewrite FSN).
      destruct n as [|n']; [lia|]. cbn [rotated]. replace (content fs1 (Rot (S n'))) with (@nil string) by (unfold content; now rewrite FN).
      replace (content fs (Rot (S n'))) with c by (unfold content; now rewrite E). cbn [app]. f_equal.
      symmetry. apply rotated_ext. intros k Hk'. apply FO; lia.
    + unfold content. destruct (fs (Rot (S n))) eqn:E2; auto.
    + intros Hs _. destruct (Nat.eq_dec n 1) as [->|]; [|apply Hd1; auto; lia].
      rewrite SM1 by lia. exact FN.
  - assert (SM1 : n <= 1 -> fs' = fs) by (intros; eapply (shift_small n); eauto).
    apply (IH fs) in H as (Hst & Hc & Hr0 & Hk & dropped & Hd & Hdr & Hd1); [|exact H0].
    assert (dropped = []) by (destruct Hdr as [|Hdr]; [assumption|congruence]).
    subst dropped. cbn [app] in Hd.
    split; [exact Hst|]. split; [exact Hc|]. split; [exact Hr0|]. split; [intros; apply Hk; lia|].
    exists []. split; [|split; [auto|]].
    + cbn [rotated app]. replace (content fs' (Rot (S n))) with (content fs (Rot (S n))) by (unfold content; now rewrite Hk by lia).
      now rewrite Hd.
    + intros Hs Hn2. destruct (Nat.eq_dec n 1) as [->|]; [|apply Hd1; auto; lia]. rewrite SM1 by lia. exact E.
Qed.

Lemma rotate_ok lg fs len o lg' fs' o' st : lg_broken lg = false -> log_inv lg fs -> rotate lg fs len o = (lg', fs', o', st) ->
  st <> Aborted /\ same_config lg lg' /\ lg_broken lg' = false /\
  fs' (Rot 0) = None /\ (forall k, top (lg_maxfiles lg) < k -> fs' (Rot k) = fs (Rot k)) /\
  (exists dropped, view (top (lg_maxfiles lg)) fs = dropped ++ view (top (lg_maxfiles lg)) fs' /\
     drop_ok lg fs len dropped) /\
  (st = Done -> log_inv lg' fs' /\
     (rotating lg len /\ fs' Cur = Some [] /\ fs' (Rot 1) = fs Cur \/ ~ rotating lg len /\ fs' = fs)).
Proof.
  intros B (I1 & I2 & I3) H. destruct (I3 B) as (HO & c & HC & HS). unfold rotate in H.
  assert (NR : (lg, fs, o, Done) = (lg', fs', o', st) -> ~ rotating lg len ->
  st <> Aborted /\ same_config lg lg' /\ lg_broken lg' = false /\
  fs' (Rot 0) = None /\ (forall k, top (lg_maxfiles lg) < k -> fs' (Rot k) = fs (Rot k)) /\
  (exists dropped, view (top (lg_maxfiles lg)) fs = dropped ++ view (top (lg_maxfiles lg)) fs' /\
     drop_ok lg fs len dropped) /\
  (st = Done -> log_inv lg' fs' /\
     (rotating lg len /\ fs' Cur = Some [] /\ fs' (Rot 1) = fs Cur \/ ~ rotating lg len /\ fs' = fs))).
  { intros E Nr. injection E as <- <- <- <-. split; [discriminate|]. split; [repeat split|]. split; [exact B|]. split; [exact I2|].
    split; [reflexivity|]. split; [exists []; split; [reflexivity|left; reflexivity]|]. intros _. split; [exact (conj I1 (conj I2 I3))|auto]. }
  destruct (N.eqb_spec (lg_maxsize lg) 0) as [Z|Z]. { apply NR; auto. intros [K _]. auto. }
  destruct (N.leb_spec (lg_filesize lg + len) (lg_maxsize lg)) as [L|L]. { apply NR; auto. intros [_ K]. lia. }
  clear NR. assert (R : rotating lg len) by (split; assumption).
  cbn [with_file lg_maxfiles] in H. destruct (lg_maxfiles lg) as [|m] eqn:EM; [lia|].
  destruct (shift_files m fs o) as [[fs1 o1] st1] eqn:ES.
  assert (SM : m <= 1 -> fs1 = fs) by (intros; eapply shift_small; eauto).
  apply shift_ok in ES as (S1 & S2 & S3 & S4 & d & S5 & S6 & S7); [|exact I2].
  set (T := top (S m)) in *.
  assert (K1 : forall k, T < k -> fs1 (Rot k) = fs (Rot k)). { intros k Hk. apply S4. unfold T, top in Hk. lia. }
  assert (T1 : 1 <= T) by (unfold T, top; lia).
  (* the shift drops the oldest file only *)
  assert (V : exists d, rotated T fs = d ++ rotated T fs1 /\ drop_ok lg fs len d /\ (m <= 1 -> d = [])).
  { destruct (Nat.le_gt_cases m 1) as [Hm|Hm].
    - exists []. rewrite (SM Hm). repeat split; auto. left. reflexivity.
    - exists d. replace T with m by (unfold T, top; lia). split; [exact S5|]. split; [|lia].
      destruct S6 as [->|S6]; [left; reflexivity|right]. destruct R. rewrite EM. repeat split; auto.
      fold T. replace T with m by (unfold T, top; lia). exact S6. }
  destruct V as (d0 & V1 & V2 & V3).
  assert (V' : exists d, view T fs = d ++ view T fs1 /\ drop_ok lg fs len d).
  { exists d0. split; [|exact V2]. unfold view. rewrite V1, <- app_assoc. do 2 f_equal. unfold content. now rewrite S2. }
  assert (SC : same_config lg (with_file lg false (lg_filesize lg))) by (repeat split).
  destruct st1.
  2,3,4: injection H as <- <- <- <-; split; [congruence|]; split; [exact SC|]; repeat split; auto; try (intros; discriminate).
  destruct (next o1) as [x o2]. destruct x.
  2,3: injection H as <- <- <- <-; split; [congruence|]; split; [exact SC|]; repeat split; auto; try (intros; discriminate).
  unfold lrename in H. rewrite S2, HC in H.
  set (fs2 := lset (lset fs1 (Rot 1) (Some c)) Cur None) in H.
  assert (F1 : fs2 (Rot 1) = Some c) by (unfold fs2; rewrite lset_other by discriminate; apply lset_same).
  assert (FC : fs2 Cur = None) by apply lset_same.
  assert (FO : forall k, k <> 1 -> fs2 (Rot k) = fs1 (Rot k)).
  { intros k Hk. unfold fs2. rewrite lset_other by discriminate. now rewrite lset_other by congruence. }
  (* the last rename drops the old .1 file, which exists only without a shift *)
  assert (W : exists d, view T fs = d ++ view T fs2 /\ drop_ok lg fs len d).
  { assert (RT : rotated T fs1 = rotated (T - 1) (fun f => match f with Rot n => fs1 (Rot (S n)) | Cur => None end) ++ content fs1 (Rot 1)
             /\ rotated T fs2 = rotated (T - 1) (fun f => match f with Rot n => fs1 (Rot (S n)) | Cur => None end) ++ c).
    { clear - T1 F1 FO. destruct T as [|t]; [lia|]. replace (S t - 1) with t by lia. clear T1. induction t as [|t [IH1 IH2]].
      - cbn [rotated]. unfold content. rewrite F1. cbn. now rewrite !app_nil_r.
      - cbn [rotated]. cbn [rotated] in IH1, IH2. rewrite IH1, IH2. unfold content. rewrite (FO (S (S t))) by lia. rewrite <- !app_assoc. auto. }
    destruct RT as [RT1 RT2]. unfold view. rewrite RT2. rewrite V1, RT1.
    replace (content fs2 Cur) with (@nil string) by (unfold content; now rewrite FC). rewrite app_nil_r.
    replace (content fs Cur) with c by (unfold content; now rewrite HC).
    destruct (Nat.le_gt_cases m 1) as [Hm|Hm].
    - rewrite (V3 Hm). cbn [app]. replace (T - 1) with 0 by (unfold T, top; lia). cbn [rotated app].
      exists (content fs1 (Rot 1)). split; [reflexivity|]. rewrite (SM Hm). unfold content.
      destruct (fs (Rot 1)) eqn:E1; [|left; reflexivity]. right. destruct R. rewrite EM. repeat split; auto.
      fold T. replace T with 1 by (unfold T, top; lia). exact E1.
    - exists d0. split; [|exact V2]. replace (content fs1 (Rot 1)) with (@nil string) by (unfold content; rewrite S7 by (auto; lia); reflexivity).
      rewrite app_nil_r. now rewrite <- app_assoc. }
  assert (K2 : forall k, T < k -> fs2 (Rot k) = fs (Rot k)). { intros k Hk. rewrite FO by lia. now apply K1. }
  assert (Z2 : fs2 (Rot 0) = None) by (rewrite FO by lia; exact S3).
  destruct (next o2) as [x o3]. destruct x.
  2,3: injection H as <- <- <- <-; split; [congruence|]; split; [exact SC|]; repeat split; auto; try (intros; discriminate).
  injection H as <- <- <- <-. split; [congruence|]. split; [repeat split|]. split; [exact B|].
  split; [rewrite lset_other by discriminate; exact Z2|]. split; [intros; rewrite lset_other by discriminate; auto|].
  split.
  { destruct W as (d1 & W1 & W2). exists d1. split; [|exact W2]. rewrite W1. f_equal. rewrite view_cur. unfold view, content. now rewrite FC. }
  intros _. split.
  - split; [cbn; lia|]. split; [rewrite lset_other by discriminate; exact Z2|].
    intros _. split; [reflexivity|]. exists []. split; [apply lset_same|reflexivity].
  - left. split; [exact R|]. split; [apply lset_same|]. rewrite lset_other by discriminate. now rewrite F1, HC.
Qed.

Lemma substring_prefix k : forall s, prefix_of (substring 0 k s) s.
Proof.
  induction k as [|k IH]; intros s.
  - exists s. destruct s; reflexivity.
  - destruct s as [|a s]; [exists ""; reflexivity|]. destruct (IH s) as [r Hr]. exists r. cbn. now rewrite <- Hr.
Qed.

Lemma view_append n fs c s : fs Cur = Some c -> view n (append fs s) = view n fs ++ [s].
Proof.
  intros H. unfold append. rewrite H. rewrite view_cur. unfold view, content. rewrite H. now rewrite app_assoc.
Qed.
Lemma append_rot fs s k : append fs s (Rot k) = fs (Rot k).
Proof. unfold append. destruct (fs Cur); [now rewrite lset_other by discriminate|reflexivity]. Qed.
Lemma append_cur fs c s : fs Cur = Some c -> append fs s Cur = Some (c ++ [s]).
Proof. intros H. unfold append. rewrite H. apply lset_same. Qed.
Lemma fsize_app a b : fsize (a ++ b) = (fsize a + fsize b)%N.
Proof. induction a as [|x a IH]; cbn [fsize fold_right app] in *; [reflexivity|]. unfold fsize in *. rewrite IH. lia. Qed.

Lemma write_ok lg fs out o lg' fs' st : lg_broken lg = false -> log_inv lg fs ->
  write_entry lg fs out o = (lg', fs', st) -> write_spec lg fs out lg' fs' st.
Proof.
  intros B HI H. pose proof HI as (I1 & I2 & I3). destruct (I3 B) as (HO & c & HC & HS). unfold write_entry in H.
  rewrite B, HO in H. cbn [negb] in H. destruct (rotate lg fs (slen out) o) as [[[lg1 fs1] o1] st1] eqn:E.
  apply (rotate_ok _ _ _ _ _ _ _ _ B HI) in E as (R1 & R2 & R3 & R4 & R5 & (d & R6 & R7) & R8).
  unfold write_spec. set (T := top (lg_maxfiles lg)) in *.
  assert (SB : same_config lg (set_broken lg1)) by (destruct R2 as (?&?&?); repeat split; auto).
  destruct st1.
  2:{ injection H as <- <- <-. split; [discriminate|]. split; [exact SB|]. split; [exact R5|]. split.
      { exists d, []. rewrite app_nil_r. repeat split; auto. cbn. discriminate. }
      split; [cbn; discriminate|]. split; [cbn; discriminate|]. intros _. split; [destruct R2 as (?&?&M); cbn; rewrite M; exact I1|].
      split; [exact R4|]. cbn. discriminate. }
  2:{ injection H as <- <- <-. split; [discriminate|]. split; [exact R2|]. split; [exact R5|]. split.
      { exists d, []. rewrite app_nil_r. repeat split; auto. intros; discriminate. }
      repeat split; intros; discriminate. }
  2:{ congruence. }
  destruct (R8 eq_refl) as [HI1 R9]. pose proof HI1 as (J1 & J2 & J3). destruct (J3 R3) as (JO & c1 & JC & JS).
  assert (VA : forall s, view T fs ++ [s] = d ++ view T (append fs1 s)).
  { intros s. rewrite (view_append _ _ c1 s JC), R6. now rewrite app_assoc. }
  assert (K : forall s k, T < k -> append fs1 s (Rot k) = fs (Rot k)). { intros. rewrite append_rot. auto. }
  destruct (fst (next o1)) as [|k|k]; injection H as <- <- <-.
  - split; [discriminate|]. split; [exact R2|]. split; [apply K|].
    split. { exists d, [out]. repeat split; auto. right. exists out. split; [reflexivity|]. exists "". clear. induction out; cbn; congruence. }
    split. { intros _ _ Z. exists (c1 ++ [out]). split; [now apply append_cur|]. rewrite fsize_app. cbn [fsize fold_right].
      destruct R9 as [(R & RC & _)|(NR & ->)].
      - rewrite RC in JC. injection JC as <-. right. reflexivity.
      - left. unfold rotating in NR. rewrite HC in JC. injection JC as <-. rewrite HS in NR. lia. }
    split. { intros _ _ Rt. destruct R9 as [(_ & RC & RR)|(NR & _)]; [|contradiction]. rewrite RC in JC. injection JC as <-.
      split; [now rewrite (append_cur _ [] _ RC)|]. exists c. rewrite append_rot, RR. split; [exact HC|]. rewrite <- HS. exact (proj2 Rt). }
    intros _. split; [exact J1|]. split; [rewrite append_rot; exact J2|]. intros _. split; [exact JO|].
    exists (c1 ++ [out]). split; [now apply append_cur|]. cbn [with_file lg_filesize]. rewrite fsize_app, JS. cbn [fsize fold_right]. lia.
  - split; [discriminate|]. split; [exact SB|]. split; [apply K|].
    split. { exists d, [substring 0 k out]. repeat split; auto; [right; eexists; split; [reflexivity|apply substring_prefix]|cbn; discriminate]. }
    split; [cbn; discriminate|]. split; [cbn; discriminate|]. intros _.
    split; [destruct R2 as (?&?&M); cbn; rewrite M; exact I1|]. split; [rewrite append_rot; exact J2|]. cbn. discriminate.
  - split; [discriminate|]. split; [exact R2|]. split; [apply K|].
    split. { exists d, [substring 0 k out]. repeat split; auto; [right; eexists; split; [reflexivity|apply substring_prefix]|discriminate]. }
    repeat split; intros; discriminate.
Qed.

(** ** histories *)

Lemma wants_spec lg t : wants lg t = true <-> hd_error (lg_events lg) = Some "all" \/ In t (lg_events lg).
Proof.
  unfold wants. destruct (lg_events lg) as [|e l].
  - cbn. intuition discriminate.
  - rewrite orb_true_iff, String.eqb_eq, existsb_exists. cbn [hd_error]. split.
    + intros [->|(x & Hx & E)]; [auto|]. apply String.eqb_eq in E. subst. auto.
    + intros [H|H]; [left; congruence|]. right. exists t. split; [exact H|apply String.eqb_refl].
Qed.

Definition proc_inv (cfg : logger) (p : lproc) (fs : logfs) : Prop :=
  1 <= lg_maxfiles cfg /\ fs (Rot 0) = None /\
  match p with Some lg => log_inv lg fs /\ same_config cfg lg | None => True end.

Lemma log_event_ok lg fs d t out o lg' fs' st : log_inv lg fs -> log_event lg fs d t out o = (lg', fs', st) ->
  (lg_broken lg = false /\ wanted lg d t /\ write_spec lg fs out lg' fs' st) \/
  ((lg_broken lg = true \/ ~ wanted lg d t) /\ lg' = lg /\ fs' = fs /\ st = Done).
Proof.
  intros HI H. unfold log_event in H.
  destruct (String.eqb_spec d "rauc-event") as [Hd|Hd]; cbn [negb] in H.
  2: { injection H as <- <- <-. right. repeat split; auto. right. intros [? _]. contradiction. }
  destruct (lg_broken lg) eqn:B. { injection H as <- <- <-. right. auto. }
  destruct (wants lg t) eqn:W; cbn [negb] in H.
  - left. split; [reflexivity|]. split; [split; [exact Hd|now apply wants_spec]|]. eapply write_ok; eauto.
  - injection H as <- <- <-. right. repeat split; auto. right. intros [_ K]. apply wants_spec in K. congruence.
Qed.

Lemma write_rot0 lg fs out o : log_inv lg fs -> snd (fst (write_entry lg fs out o)) (Rot 0) = None.
Proof.
  intros HI. pose proof HI as (I1 & I2 & I3). unfold write_entry. destruct (lg_broken lg) eqn:B; [exact I2|].
  destruct (I3 eq_refl) as [HO _]. rewrite HO. cbn [negb]. destruct (rotate lg fs (slen out) o) as [[[lg1 fs1] o1] st1] eqn:E.
  apply (rotate_ok _ _ _ _ _ _ _ _ B HI) in E as (_ & _ & _ & R4 & _). destruct st1; cbn; auto.
  destruct (fst (next o1)); cbn; rewrite append_rot; exact R4.
Qed.
Lemma log_event_rot0 lg fs d t out o : log_inv lg fs -> snd (fst (log_event lg fs d t out o)) (Rot 0) = None.
Proof.
  intros HI. unfold log_event. destruct (negb _); [exact (proj1 (proj2 HI))|]. destruct (lg_broken lg); [exact (proj1 (proj2 HI))|].
  destruct (negb _); [exact (proj1 (proj2 HI))|]. now apply write_rot0.
Qed.

Lemma lstep_ok cfg p fs e : lg_broken cfg = false -> proc_inv cfg p fs ->
  let T := top (lg_maxfiles cfg) in let p' := fst (lstep cfg p fs e) in let fs' := snd (lstep cfg p fs e) in
  proc_inv cfg p' fs' /\ (forall k, T < k -> fs' (Rot k) = fs (Rot k)) /\
  exists dropped added, view T fs ++ added = dropped ++ view T fs' /\ contributes p e p' added /\
    (lg_maxsize cfg = 0%N -> dropped = []).
Proof.
  intros B (P1 & P2 & P3) T p' fs'. unfold p', fs'. clear p' fs'. destruct e as [o|d t out o]; cbn [lstep].
  - unfold setup. destruct (fst (next o)).
    + cbn [fst snd]. assert (Z : lset fs Cur (Some (match fs Cur with Some c => c | None => [] end)) (Rot 0) = None) by (rewrite lset_other by discriminate; exact P2).
      split; [|split].
      * split; [exact P1|]. split; [exact Z|]. split; [|repeat split]. split; [exact P1|]. split; [exact Z|].
        intros _. split; [reflexivity|]. eexists. split; [apply lset_same|reflexivity].
      * intros. now rewrite lset_other by discriminate.
      * exists [], []. rewrite view_cur, app_nil_r. cbn [app]. split; [|split; [reflexivity|auto]].
        unfold view, content. destruct (fs Cur); reflexivity.
    + cbn [fst snd]. split; [|split; [auto|]].
      * split; [exact P1|]. split; [exact P2|]. split; [|repeat split]. split; [exact P1|]. split; [exact P2|]. discriminate.
      * exists [], []. rewrite app_nil_r. repeat split; auto.
    + cbn [fst snd]. split; [|split; [auto|]].
      * split; [exact P1|]. split; [exact P2|exact Logic.I].
      * exists [], []. rewrite app_nil_r. repeat split; auto.
  - destruct p as [lg|].
    2: { cbn [fst snd]. split; [repeat split; auto|]. split; [auto|]. exists [], []. rewrite app_nil_r. repeat split; auto. }
    destruct P3 as [HI (SC1 & SC2 & SC3)].
    pose proof (log_event_rot0 lg fs d t out o HI) as Z.
    destruct (log_event lg fs d t out o) as [[lg' fs'] st] eqn:E. cbn [fst snd] in Z.
    cbn [fst snd].
    apply log_event_ok in E as [(B' & W & WS)|(NW & -> & -> & ->)]; [| |exact HI].
    + destruct WS as (W1 & (C1 & C2 & C3) & W3 & (dr & ad & W4 & W5 & W6 & W7) & _ & _ & W8).
      rewrite SC3 in *. fold T in W3, W4, W5. split; [|split; [exact W3|]].
      * split; [exact P1|]. split; [exact Z|]. destruct st; auto. split; [now apply W8|]. split; [congruence|]. split; congruence.
      * exists dr, ad. split; [exact W4|]. split.
        -- split; [exact W6|]. split; [intros [K|K]; [congruence|contradiction]|]. intros lg2 E2 _ B2 _. destruct st; try discriminate.
           injection E2 as <-. apply W7; auto.
        -- intros Z0. destruct W5 as [->|(Z1 & _)]; [reflexivity|]. congruence.
    + split; [|split; [auto|]].
      * split; [exact P1|]. split; [exact P2|]. split; [exact HI|repeat split; auto].
      * exists [], []. rewrite app_nil_r. repeat split; auto. intros lg' E1 B1 _ W. destruct NW; [congruence|contradiction].
Qed.

Lemma lrun_ok cfg h : forall p fs, lg_broken cfg = false -> proc_inv cfg p fs ->
  let T := top (lg_maxfiles cfg) in
  (forall k, T < k -> snd (lrun cfg p fs h) (Rot k) = fs (Rot k)) /\
  exists dropped added, view T fs ++ added = dropped ++ view T (snd (lrun cfg p fs h)) /\ contributed cfg p fs h added /\
    (lg_maxsize cfg = 0%N -> dropped = []).
Proof.
  induction h as [|e h IH]; intros p fs B HI T; cbn [lrun contributed].
  - split; [auto|]. exists [], []. rewrite app_nil_r. auto.
  - destruct (lstep_ok cfg p fs e B HI) as (HI' & K & d & a & V & C & D).
    destruct (lstep cfg p fs e) as [p' fs'] eqn:E. cbn [fst snd] in *.
    destruct (IH p' fs' B HI') as (K' & d' & a' & V' & C' & D').
    split; [intros k Hk; rewrite K' by exact Hk; now apply K|].
    exists (d ++ d'), (a ++ a'). split; [|split].
    + fold T in V, V'. rewrite app_assoc, V, <- !app_assoc, V'. reflexivity.
    + exists a, a'. auto.
    + intros Z. now rewrite D, D'.
Qed.

(** C25, one event *)
Lemma c25_write_ok : forall lg fs out o lg' fs' st, lg_broken lg = false -> log_inv lg fs ->
  write_entry lg fs out o = (lg', fs', st) -> write_spec lg fs out lg' fs' st.
Proof. exact write_ok. Qed.

(** C25, every history of starts, events, failures and crashes *)
Lemma c25_history_ok : forall events maxsize maxfiles fs0 h, 1 <= maxfiles -> fs0 (Rot 0) = None ->
  let cfg := fresh_logger events maxsize maxfiles in
  let fs := snd (lrun cfg None fs0 h) in
  exists dropped added,
    view (top maxfiles) fs0 ++ added = dropped ++ view (top maxfiles) fs /\
    contributed cfg None fs0 h added /\
    (maxsize = 0%N -> dropped = []) /\
    (forall k, top maxfiles < k -> fs (Rot k) = fs0 (Rot k)).
Proof.
  intros events maxsize maxfiles fs0 h HM H0 cfg fs.
  destruct (lrun_ok cfg h None fs0 eq_refl) as (K & d & a & V & C & D).
  - split; [exact HM|]. split; [exact H0|exact Logic.I].
  - exists d, a. repeat split; auto.
Qed.

(** the number of files is bounded by max-files, if that is at least 2 ... *)
Lemma c25_files_ok : forall events maxsize maxfiles fs0 h, 2 <= maxfiles -> (forall k, fs0 (Rot k) = None) ->
  forall k, maxfiles <= k -> snd (lrun (fresh_logger events maxsize maxfiles) None fs0 h) (Rot k) = None.
Proof.
  intros events maxsize maxfiles fs0 h HM H0 k Hk.
  destruct (c25_history_ok events maxsize maxfiles fs0 h ltac:(lia) (H0 0)) as (_ & _ & _ & _ & _ & K).
  rewrite K by (unfold top; lia). apply H0.
Qed.

(** ... but max-files=1 keeps two files *)
Lemma c25_one_file_refuted : exists fs0 h, (forall f, fs0 f = None) /\
  let fs := snd (lrun (fresh_logger ["all"] 8 1) None fs0 h) in
  fs Cur = Some ["event2"] /\ fs (Rot 1) = Some ["event1"].
Proof.
  exists (fun _ => None), [LStart []; LEvent "rauc-event" "boot" "event1" []; LEvent "rauc-event" "boot" "event2" []].
  split; [reflexivity|]. split; vm_compute; reflexivity.
Qed.
