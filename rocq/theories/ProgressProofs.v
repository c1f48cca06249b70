From Coq Require Import Lqa.
From Verif Require Import Base BaseLemmas Progress ProgressSpec.
Open Scope Q_scope.

Lemma qn_add a b : qn (a + b) == qn a + qn b.
Proof. unfold qn. rewrite Nat2Z.inj_add, inject_Z_plus. reflexivity. Qed.
Lemma qn_le a b : (a <= b)%nat -> qn a <= qn b.
Proof. intros. unfold qn. rewrite <- Zle_Qle. lia. Qed.
Lemma qn_pos a : (1 <= a)%nat -> 1 <= qn a.
Proof. intros. change 1 with (qn 1). now apply qn_le. Qed.
Lemma qn_nonneg a : 0 <= qn a.
Proof. apply (qn_le 0 a). apply Nat.le_0_l. Qed.
Lemma qn_inj a b : qn a == qn b -> a = b.
Proof. unfold qn. intros H. apply Nat2Z.inj. now apply inject_Z_injective. Qed.

Lemma trunc_le a b : a <= b -> (trunc a <= trunc b)%Z.
Proof. apply Qfloor_resp_le. Qed.
Lemma trunc_Z z : trunc (inject_Z z) = z.
Proof. apply Qfloor_Z. Qed.
Lemma trunc_ge z q : inject_Z z <= q -> (z <= trunc q)%Z.
Proof. intros H. apply trunc_le in H. now rewrite trunc_Z in H. Qed.
Lemma trunc_upper z q : q <= inject_Z z -> (trunc q <= z)%Z.
Proof. intros H. apply trunc_le in H. now rewrite trunc_Z in H. Qed.
Lemma trunc_comp a b : a == b -> trunc a = trunc b.
Proof. apply Qfloor_comp. Qed.

Lemma Qltb_spec a b : reflect (a < b) (Qltb a b).
Proof.
  unfold Qltb. destruct (Qle_bool b a) eqn:E; constructor.
  - apply Qle_bool_iff in E. now apply Qle_not_lt.
  - apply Qnot_le_lt. intros K. apply Qle_bool_iff in K. congruence.
Qed.

(** the part of a step's share that it has already passed to its parent *)
Definition passed (s : pstep) : Q := s_pt s * (inject_Z (s_last s) / 100).

(** invariant of the stack; [x]: what the open substep has passed to the first step *)
Fixpoint stk (x : Q) (l : list pstep) : Prop :=
  match l with
  | [] => True
  | s :: r =>
      0 <= s_pt s <= 100 /\ (s_done s <= s_total s)%nat /\ (0 <= s_last s <= 100)%Z /\
      (s_total s <> 0%nat -> s_last s = 0%Z /\ exists k, 0 <= k /\ s_pt s == k * qn (s_total s) /\ s_pd s == k * qn (s_done s) + x) /\
      match r with
      | [] => s_pt s == 100 /\ s_last s = 0%Z
      | p :: _ => (1 <= s_weight s)%nat /\ s_total p <> 0%nat /\ (s_done p + s_weight s <= s_total p)%nat /\
                  (forall k, s_pt p == k * qn (s_total p) -> s_pt s == k * qn (s_weight s))
      end /\
      stk (passed s) r
  end.

Lemma passed_bounds s : 0 <= s_pt s -> (0 <= s_last s <= 100)%Z -> 0 <= passed s <= s_pt s.
Proof.
  intros H [H1 H2]. unfold passed.
  assert (0 <= inject_Z (s_last s) / 100 <= 1).
  { split.
    - apply Qle_shift_div_l; [reflexivity|]. rewrite Qmult_0_l. change 0 with (inject_Z 0). now rewrite <- Zle_Qle.
    - apply Qle_shift_div_r; [reflexivity|]. rewrite Qmult_1_l. change 100 with (inject_Z 100). now rewrite <- Zle_Qle. }
  set (f := inject_Z (s_last s) / 100) in *. clearbody f. nra.
Qed.
Lemma passed_0 s : s_last s = 0%Z -> passed s == 0.
Proof. intros H. unfold passed. rewrite H. unfold Qdiv. change (inject_Z 0) with 0. ring. Qed.

(** what is still open fits: the sum of the ancestors and this step's remaining share *)
Lemma stk_bound l : forall s x, stk x (s :: l) -> sum_pd l + (s_pt s - passed s) <= 100.
Proof.
  induction l as [|p l IH]; intros s x H.
  - cbn [stk] in H. destruct H as ((_ & _) & _ & L & _ & (P & L0) & _). cbn [sum_pd fold_right].
    rewrite (passed_0 _ L0). lra.
  - destruct H as (B & _ & L & _ & (W & TP & WP & SH) & HS). pose proof HS as HS'.
    cbn [stk] in HS. destruct HS as (BP & _ & _ & KP & _ & _). destruct (KP TP) as (LP & k & K0 & K1 & K2).
    specialize (SH k K1). specialize (IH p (passed s) HS'). rewrite (passed_0 _ LP) in IH.
    cbn [sum_pd fold_right]. change (fold_right (fun s a => s_pd s + a) 0 l) with (sum_pd l).
    apply qn_le in WP. rewrite qn_add in WP.
    assert (k * qn (s_done p) + k * qn (s_weight s) <= k * qn (s_total p)) by nra. lra.
Qed.

(** the progress which is complete *)
Definition potential (l : list pstep) : Q :=
  match l with
  | [] => 100
  | s :: r => (if Nat.eqb (s_total s) 0 then 0 else s_pd s) + sum_pd r
  end.

Lemma sum_nonneg l : forall x, 0 <= x -> stk x l -> (forall s r, l = s :: r -> s_total s <> 0%nat) -> 0 <= sum_pd l.
Proof.
  induction l as [|s l IH]; intros x X H HT; [cbn; lra|].
  cbn [stk] in H. destruct H as (B & _ & L & K & R & HS). destruct (K (HT s l eq_refl)) as (_ & k & K0 & K1 & K2).
  pose proof (passed_bounds s (proj1 B) L) as PB.
  cbn [sum_pd fold_right]. change (fold_right (fun s a => s_pd s + a) 0 l) with (sum_pd l).
  assert (0 <= sum_pd l). { apply (IH (passed s)); [lra|exact HS|]. intros p q ->. now destruct R as (_ & R & _). }
  pose proof (qn_nonneg (s_done s)). nra.
Qed.

Lemma potential_bound s l : stk 0 (s :: l) -> 0 <= sum_pd l <= potential (s :: l) /\ potential (s :: l) <= 100.
Proof.
  intros H. pose proof (stk_bound l s 0 H) as BD. cbn [stk] in H. destruct H as (B & D & L & K & R & HS).
  pose proof (passed_bounds s (proj1 B) L) as PB.
  assert (SN : 0 <= sum_pd l). { apply (sum_nonneg l (passed s)); [lra|exact HS|]. intros p q ->. now destruct R as (_ & R & _). }
  cbn [potential]. destruct (Nat.eqb_spec (s_total s) 0) as [E|E]; [split; lra|].
  destruct (K E) as (L0 & k & K0 & K1 & K2). rewrite (passed_0 _ L0) in BD. apply qn_le in D.
  pose proof (qn_nonneg (s_done s)).
  assert (k * qn (s_done s) <= k * qn (s_total s)) by nra. assert (0 <= k * qn (s_done s)) by nra. split; lra.
Qed.

Lemma full_all l : forall s x, stk x (s :: l) -> s_pt s == 100 -> Forall (fun p => s_pt p == 100) (s :: l).
Proof.
  induction l as [|p l IH]; intros s x H E; [constructor; auto|]. constructor; [exact E|].
  destruct H as (B & _ & L & _ & (W & TP & WP & SH) & HS). apply (IH p (passed s) HS).
  cbn [stk] in HS. destruct HS as (BP & _ & _ & KP & _ & _). destruct (KP TP) as (LP & k & K0 & K1 & K2).
  specialize (SH k K1). assert (WT : (s_weight s <= s_total p)%nat) by lia. apply qn_le in WT.
  assert (k * qn (s_weight s) <= k * qn (s_total p)) by nra. lra.
Qed.

(** the spec view of a stack *)
Definition opened (s : pstep) : open_step := mkOpen (s_name s) (s_weight s) (s_total s) (s_done s) (s_last s).

(** [L]: the last reported percentage *)
Definition inv (stack : list pstep) (sh : list open_step) (L : Z) : Prop :=
  sh = map opened stack /\ stk 0 stack /\
  (stack <> [] -> (0 <= L <= 100)%Z /\ (L <= trunc (potential stack))%Z /\
     ((99 < L)%Z -> Forall (fun p => s_pt p == 100) stack /\ exists s r, stack = s :: r /\ s_total s <> 0%nat /\ s_done s = s_total s)).

Definition capped (p : Q) : Q := if Qltb 99 p then 99 else p.

Lemma capped_le p : capped p <= p.
Proof. unfold capped. destruct (Qltb_spec 99 p); lra. Qed.
Lemma capped_99 p : capped p <= 99.
Proof. unfold capped. destruct (Qltb_spec 99 p); lra. Qed.
Lemma capped_ge L p : (L <= 99)%Z -> (L <= trunc p)%Z -> (L <= trunc (capped p))%Z.
Proof.
  intros H1 H2. unfold capped. destruct (Qltb_spec 99 p); [|exact H2]. change 99 with (inject_Z 99). now rewrite trunc_Z.
Qed.

Lemma send_capped s anc fin p : anc <> [] -> sum_pd anc == p -> p <= 100 -> s_pd s < 100 ->
  exists r, send_progress (s :: anc) fin = Ok r /\ r_pct r = trunc (capped p) /\ r_depth r = List.length (s :: anc) /\ r_finished r = fin.
Proof.
  intros HA HP HB HS. unfold send_progress. assert (E : match anc with [] => s_pd s | _ :: _ => sum_pd anc end = sum_pd anc) by (now destruct anc).
  rewrite E. clear E. destruct (Qltb_spec (s_pd s) 100) as [_|C]; [|contradiction]. cbn [andb].
  assert (CE : (if Qltb 99 (sum_pd anc) then 99 else sum_pd anc) == capped p).
  { unfold capped. destruct (Qltb_spec 99 (sum_pd anc)), (Qltb_spec 99 p); lra. }
  apply trunc_comp in CE. rewrite CE. pose proof (capped_99 p) as C9.
  assert ((trunc (capped p) <= 99)%Z) by (apply trunc_upper; exact C9).
  destruct (Z.leb_spec (trunc (capped p)) 100); [|lia]. eexists. split; [reflexivity|]. auto.
Qed.

Definition good_report (L : Z) (r : report) : Prop :=
  (L <= r_pct r \/ root_begin r)%Z /\ (0 <= r_pct r <= 100)%Z /\
  (root_begin r -> r_pct r = 0%Z) /\ (r_depth r = 1%nat -> r_finished r = true -> r_pct r = 100%Z).

Definition step_ok (stack : list pstep) (sh' : list open_step) (L : Z) (res : res (list pstep * list report)) : Prop :=
  exists st' reps, res = Ok (st', reps) /\
    ((reps = [] /\ inv st' sh' L) \/ exists r, reps = [r] /\ inv st' sh' (r_pct r) /\ good_report L r).

Lemma begin_ok stack sh L n sub w sh' : inv stack sh L -> nest sh (OpBegin n sub w) = Some sh' ->
  step_ok stack sh' L (begin_step stack n sub w).
Proof.
  intros (HM & HS & HL) HN. unfold begin_step. subst sh. destruct stack as [|p l]; cbn [map nest] in HN.
  - injection HN as <-. cbn [bind]. unfold send_progress. cbn [s_pd].
    replace (if Qltb 0 100 && Qltb 99 0 then 99 else 0) with 0 by (vm_compute; reflexivity).
    replace (trunc 0 <=? 100)%Z with true by reflexivity. cbn [bind].
    eexists _, _. split; [reflexivity|]. right. eexists. split; [reflexivity|]. cbn [r_pct r_depth r_finished List.length].
    change (trunc 0) with 0%Z. split.
    + split; [reflexivity|]. split.
      * cbn [stk s_pt s_done s_total s_last s_weight s_pd]. repeat split; try lra; try lia.
        exists (100 / qn sub). pose proof (qn_pos sub ltac:(lia)) as Q1. repeat split.
        -- apply Qle_shift_div_l; lra.
        -- field. lra.
        -- change (qn 0) with 0. ring.
      * intros _. split; [lia|]. split; [|lia]. cbn [potential s_total s_pd sum_pd fold_right].
        destruct (Nat.eqb sub 0); vm_compute; discriminate.
    + repeat split; cbn; auto; try lia; intros; try discriminate. right. split; reflexivity.
  - cbn [opened o_done o_total] in HN.
    destruct (Nat.leb_spec 1 w) as [W1|]; [|discriminate]. destruct (Nat.leb_spec (s_done p + w) (s_total p)) as [W2|]; [|discriminate].
    injection HN as <-. pose proof HS as HS'. cbn [stk] in HS. destruct HS as (B & D & LA & K & R & HS).
    destruct (Nat.eqb_spec (s_total p) 0) as [|TP]; [lia|]. destruct (Nat.eqb_spec (s_total p) (s_done p)) as [|TD]; [lia|].
    destruct (K TP) as (L0 & k & K0 & K1 & K2).
    set (pt := qn w * s_pt p / qn (s_total p)).
    pose proof (qn_pos (s_total p) ltac:(lia)) as QT. pose proof (qn_pos w W1) as QW.
    assert (PT : forall k, s_pt p == k * qn (s_total p) -> pt == k * qn w).
    { intros k' K'. unfold pt. rewrite K'. field. lra. }
    pose proof (PT k K1) as PTk. pose proof W2 as W3. apply qn_le in W3. rewrite qn_add in W3. pose proof (qn_nonneg (s_done p)) as QD.
    assert (PL : pt <= s_pt p) by nra. assert (P0 : 0 <= pt) by nra.
    destruct (Z.leb_spec (trunc pt) (trunc (s_pt p))) as [_|C]; [|pose proof (trunc_le _ _ PL); lia].
    assert (P100 : (trunc pt <= 100)%Z). { apply trunc_upper. change (inject_Z 100) with 100. lra. }
    destruct (Z.leb_spec (trunc pt) 100) as [_|C]; [|lia]. cbn [andb bind].
    destruct (HL ltac:(discriminate)) as (LB & LP & LJ).
    pose proof (potential_bound _ _ HS') as [PB1 PB2].
    assert (POT : sum_pd (p :: l) == potential (p :: l)).
    { cbn [potential sum_pd fold_right]. destruct (Nat.eqb_spec (s_total p) 0); [lia|reflexivity]. }
    destruct (send_capped (mkStep n w sub 0 pt 0 0) (p :: l) false (potential (p :: l))) as (r & R1 & R2 & R3 & R4);
      [discriminate|exact POT|exact PB2|cbn; lra|].
    rewrite R1. cbn [bind]. eexists _, _. split; [reflexivity|]. right. exists r. split; [reflexivity|].
    assert (L99 : (L <= 99)%Z).
    { destruct (Z_lt_le_dec 99 L) as [J|]; [|assumption]. destruct (LJ J) as (_ & s & r' & E & _ & E2). injection E as <- <-. lia. }
    assert (C0 : (0 <= trunc (capped (potential (p :: l))))%Z). { apply capped_ge; [lia|]. apply trunc_ge. change (inject_Z 0) with 0. lra. }
    pose proof (trunc_upper 99 _ (capped_99 (potential (p :: l)))) as C9.
    split.
    + split; [reflexivity|]. split.
      * change (stk 0 (mkStep n w sub 0 pt 0 0 :: p :: l)) with
          (0 <= pt <= 100 /\ (0 <= sub)%nat /\ (0 <= 0 <= 100)%Z /\
           (sub <> 0%nat -> 0%Z = 0%Z /\ exists k, 0 <= k /\ pt == k * qn sub /\ 0 == k * qn 0 + 0) /\
           ((1 <= w)%nat /\ s_total p <> 0%nat /\ (s_done p + w <= s_total p)%nat /\ (forall k, s_pt p == k * qn (s_total p) -> pt == k * qn w)) /\
           stk (passed (mkStep n w sub 0 pt 0 0)) (p :: l)).
        split; [lra|]. split; [lia|]. split; [lia|]. split.
        { intros SN. split; [reflexivity|]. exists (pt / qn sub). pose proof (qn_pos sub ltac:(lia)) as Q1. repeat split.
          - apply Qle_shift_div_l; lra.
          - field. lra.
          - change (qn 0) with 0. ring. }
        split; [auto|]. 
        assert (PZ : passed (mkStep n w sub 0 pt 0 0) == 0) by (apply passed_0; reflexivity).
        cbn [stk]. split; [exact B|]. split; [exact D|]. split; [exact LA|]. split; [|split; [exact R|exact HS]].
        intros _. split; [exact L0|]. exists k. split; [exact K0|]. split; [exact K1|]. rewrite PZ. exact K2.
      * intros _. rewrite R2. split; [lia|]. split; [|lia]. apply trunc_le. pose proof (capped_le (potential (p :: l))) as CL.
        set (P := potential (p :: l)) in *. clearbody P. cbn [potential s_total s_pd].
        assert (E0 : (if Nat.eqb sub 0 then 0 else 0) == 0) by (destruct (Nat.eqb sub 0); reflexivity). rewrite E0, POT. lra.
    + repeat split.
      * left. rewrite R2. now apply capped_ge.
      * rewrite R2. lia.
      * rewrite R2. lia.
      * intros [RB _]. rewrite R3 in RB. discriminate.
      * intros RB _. rewrite R3 in RB. discriminate.
Qed.

Lemma frac_bounds d : (0 <= d <= 100)%Z -> 0 <= inject_Z d / 100 <= 1.
Proof.
  intros [H1 H2]. split.
  - apply Qle_shift_div_l; [reflexivity|]. rewrite Qmult_0_l. change 0 with (inject_Z 0). now rewrite <- Zle_Qle.
  - apply Qle_shift_div_r; [reflexivity|]. rewrite Qmult_1_l. change 100 with (inject_Z 100). now rewrite <- Zle_Qle.
Qed.
Lemma frac_99 d : (d <= 99)%Z -> inject_Z d / 100 <= 99 # 100.
Proof.
  intros H. apply Qle_shift_div_r; [reflexivity|]. change ((99 # 100) * 100) with (9900 # 100).
  apply Qle_trans with (inject_Z 99); [now rewrite <- Zle_Qle|vm_compute; discriminate].
Qed.
Lemma frac_sub a b : inject_Z (a - b) / 100 == inject_Z a / 100 - inject_Z b / 100.
Proof. unfold Qdiv. unfold Z.sub. rewrite inject_Z_plus, inject_Z_opp. ring. Qed.

(** the stack after an explicit percentage was set *)
Lemma set_stk s p rest c : stk 0 (s :: p :: rest) -> s_total s = 0%nat -> (s_last s < c <= 100)%Z ->
  let s' := set_last (set_pd s (s_pt s * (inject_Z (c - s_last s) / 100))) c in
  let p' := set_pd p (s_pd p + s_pd s') in
  stk 0 (s' :: p' :: rest) /\ 0 <= s_pd s' <= s_pt s.
Proof.
  intros H T C s' p'. destruct H as (B & D & LA & K & (W & TP & WP & SH) & HS).
  destruct HS as (BP & DP & LP & KP & RP & HS). destruct (KP TP) as (L0 & k & K0 & K1 & K2).
  pose proof (frac_bounds (c - s_last s) ltac:(lia)) as FB.
  assert (PD : s_pd s' == s_pt s * (inject_Z c / 100) - passed s).
  { unfold s', passed. cbn [set_last set_pd s_pd]. rewrite frac_sub. ring. }
  split.
  2: { unfold s'. cbn [set_last set_pd s_pd]. set (f := inject_Z (c - s_last s) / 100) in *. clearbody f. nra. }
  cbn [stk]. split; [exact B|]. split; [exact D|]. split; [cbn; lia|]. split; [cbn; lia|].
  split; [repeat split; auto|]. split; [exact BP|]. split; [exact DP|]. split; [exact LP|]. split; [|split].
  - intros _. split; [exact L0|]. exists k. split; [exact K0|]. split; [exact K1|]. unfold p'. cbn [set_pd s_pd s_done].
    rewrite K2, PD. unfold passed at 3. unfold s'. cbn [set_last set_pd s_pt s_last]. ring.
  - destruct rest; [exact RP|exact RP].
  - exact HS.
Qed.

Lemma set_ok s p rest L n c : inv (s :: p :: rest) (map opened (s :: p :: rest)) L ->
  s_name s = n -> s_total s = 0%nat -> (0 <= c <= 100)%Z ->
  step_ok (s :: p :: rest) (mkOpen (s_name s) (s_weight s) 0 0 (Z.max (s_last s) c) :: map opened (p :: rest)) L
    (set_percentage (s :: p :: rest) n c).
Proof.
  intros (_ & HS & HL) HN T HC. destruct (HL ltac:(discriminate)) as (LB & LP & LJ).
  assert (L99 : (L <= 99)%Z).
  { destruct (Z_lt_le_dec 99 L) as [J|]; [|assumption]. destruct (LJ J) as (_ & s' & r' & E & E1 & _). injection E as <- <-. congruence. }
  assert (D0 : s_done s = 0%nat). { destruct HS as (_ & D & _). lia. }
  subst n. unfold set_percentage. rewrite String.eqb_refl. cbn [negb].
  destruct (Z.ltb_spec (c - s_last s) 1) as [C|C].
  - eexists _, _. split; [reflexivity|]. left. split; [reflexivity|]. split; [|split; [exact HS|exact HL]].
    cbn [map]. rewrite Z.max_l by lia. unfold opened. rewrite T, D0. reflexivity.
  - destruct (set_stk s p rest c HS T ltac:(lia)) as (HS' & PD).
    set (s' := set_last (set_pd s (s_pt s * (inject_Z (c - s_last s) / 100))) c) in *.
    set (p' := set_pd p (s_pd p + s_pd s')) in *.
    pose proof (potential_bound _ _ HS') as [PB1 PB2].
    assert (POT : potential (s' :: p' :: rest) == sum_pd (p' :: rest)).
    { cbn [potential]. change (s_total s') with (s_total s). rewrite T. cbn [Nat.eqb]. ring. }
    assert (POLD : potential (s :: p :: rest) <= potential (s' :: p' :: rest)).
    { rewrite POT. cbn [potential]. rewrite T. cbn [Nat.eqb sum_pd fold_right]. unfold p'. cbn [set_pd s_pd]. lra. }
    assert (OPEN : mkOpen (s_name s) (s_weight s) 0 0 (Z.max (s_last s) c) :: map opened (p :: rest) = map opened (s' :: p' :: rest)).
    { cbn [map]. rewrite Z.max_r by lia. unfold opened, s'. cbn. rewrite T, D0. reflexivity. }
    pose proof (trunc_le _ _ POLD) as LE.
    destruct (Z.eqb_spec c 100) as [->|C100].
    + eexists _, _. split; [reflexivity|]. left. split; [reflexivity|]. split; [exact OPEN|]. split; [exact HS'|].
      intros _. split; [exact LB|]. split; [lia|]. lia.
    + assert (PD99 : s_pd s' < 100).
      { unfold s'. cbn [set_last set_pd s_pd]. pose proof (frac_99 (c - s_last s)). 
        destruct HS as (B & _ & LA & _). specialize (H ltac:(lia)). pose proof (frac_bounds (c - s_last s) ltac:(lia)).
        set (f := inject_Z (c - s_last s) / 100) in *. clearbody f. nra. }
      destruct (send_capped s' (p' :: rest) false (potential (s' :: p' :: rest))) as (r & R1 & R2 & R3 & R4);
        [discriminate|now rewrite POT|exact PB2|exact PD99|].
      fold p'. change (mkStep (s_name s) _ _ _ _ _ _) with s'. rewrite R1. cbn [bind]. eexists _, _. split; [reflexivity|]. right. exists r.
      split; [reflexivity|].
      assert (C0 : (0 <= trunc (capped (potential (s' :: p' :: rest))))%Z). { apply capped_ge; [lia|]. apply trunc_ge. change (inject_Z 0) with 0. lra. }
      pose proof (trunc_upper 99 _ (capped_99 (potential (s' :: p' :: rest)))) as C9.
      split.
      * split; [exact OPEN|]. split; [exact HS'|]. intros _. rewrite R2. split; [lia|]. split; [|lia]. apply trunc_le, capped_le.
      * repeat split.
        -- left. rewrite R2. apply capped_ge; lia.
        -- rewrite R2. lia.
        -- rewrite R2. lia.
        -- intros [RB _]. rewrite R3 in RB. discriminate.
        -- intros RB _. rewrite R3 in RB. discriminate.
Qed.

Lemma close_ok s p rest L s' q : inv (s :: p :: rest) (map opened (s :: p :: rest)) L ->
  0 <= s_pd s' <= s_pt s -> (s_last s = 0%Z -> s_pd s' == s_pt s) -> q == s_pd p + s_pt s - passed s ->
  let p' := set_pd (set_done p (s_done p + s_weight s)) q in
  (trunc (s_pd s') <= trunc q)%Z /\
  exists r, send_progress (s' :: p' :: rest) true = Ok r /\ inv (p' :: rest) (map opened (p' :: rest)) (r_pct r) /\ good_report L r.
Proof.
  intros (_ & HS & HL) HD H0 HQ p'. destruct (HL ltac:(discriminate)) as (LB & LP & LJ). pose proof HS as HS0.
  destruct HS as (B & D & LA & K & (W & TP & WP & SH) & HS). pose proof HS as HSP.
  destruct HS as (BP & DP & LAP & KP & RP & HS). destruct (KP TP) as (L0 & k & K0 & K1 & K2).
  specialize (SH k K1). pose proof (passed_bounds s (proj1 B) LA) as PB.
  assert (QK : q == k * qn (s_done p + s_weight s) + 0). { rewrite HQ, K2, qn_add, SH. ring. }
  assert (STK : stk 0 (p' :: rest)).
  { cbn [stk]. split; [exact BP|]. split; [exact WP|]. split; [exact LAP|]. split; [|split; [exact RP|exact HS]].
    intros _. split; [exact L0|]. exists k. split; [exact K0|]. split; [exact K1|exact QK]. }
  pose proof (potential_bound _ _ STK) as [PB1 PB2].
  assert (POT : sum_pd (p' :: rest) == potential (p' :: rest)).
  { cbn [potential sum_pd fold_right]. change (s_total p') with (s_total p). destruct (Nat.eqb_spec (s_total p) 0); [contradiction|reflexivity]. }
  assert (POLD : potential (s :: p :: rest) <= potential (p' :: rest)).
  { rewrite <- POT. cbn [potential sum_pd fold_right]. unfold p'. cbn [set_pd s_pd]. rewrite HQ.
    destruct (Nat.eqb_spec (s_total s) 0) as [E|E]; [lra|]. destruct (K E) as (LS & k' & K0' & K1' & K2').
    rewrite (passed_0 _ LS). apply qn_le in D. assert (k' * qn (s_done s) <= k' * qn (s_total s)) by nra. lra. }
  split.
  { apply trunc_le. rewrite QK, qn_add. pose proof (qn_nonneg (s_done p)). rewrite SH in HD. nra. }
  assert (LE : (L <= trunc (potential (p' :: rest)))%Z). { pose proof (trunc_le _ _ POLD). lia. }
  destruct (Qlt_le_dec (s_pd s') 100) as [C|C].
  - (* capped *)
    assert (L99 : (L <= 99)%Z).
    { destruct (Z_lt_le_dec 99 L) as [J|]; [|assumption]. destruct (LJ J) as (FA & s0 & r' & E & E1 & _). injection E as <- <-.
      destruct (K E1) as (LS & _). specialize (H0 LS). inversion FA as [|? ? F1 _]; subst. lra. }
    destruct (send_capped s' (p' :: rest) true (potential (p' :: rest))) as (r & R1 & R2 & R3 & R4);
      [discriminate|exact POT|exact PB2|exact C|].
    assert (C0 : (0 <= trunc (capped (potential (p' :: rest))))%Z). { apply capped_ge; [lia|]. apply trunc_ge. change (inject_Z 0) with 0. lra. }
    pose proof (trunc_upper 99 _ (capped_99 (potential (p' :: rest)))) as C9.
    exists r. split; [exact R1|]. split.
    + split; [reflexivity|]. split; [exact STK|]. intros _. rewrite R2. split; [lia|]. split; [apply trunc_le, capped_le|lia].
    + repeat split.
      * left. rewrite R2. now apply capped_ge.
      * rewrite R2. lia.
      * rewrite R2. lia.
      * intros [RB _]. rewrite R3 in RB. discriminate.
      * intros RB _. rewrite R3 in RB. discriminate.
  - (* complete *)
    assert (PT : s_pt s == 100) by lra.
    pose proof (full_all _ _ _ HS0 PT) as FA. inversion FA as [|? ? _ FA']; subst. inversion FA' as [|? ? F1 FR]; subst.
    assert (KP1 : 0 < k). { destruct (Qlt_le_dec 0 k); [assumption|]. exfalso. pose proof (qn_nonneg (s_weight s)). nra. }
    assert (WT : s_weight s = s_total p).
    { apply qn_inj. assert (k * qn (s_weight s) == k * qn (s_total p)) by lra.
      assert (k * (qn (s_weight s) - qn (s_total p)) == 0) by lra.
      destruct (Qmult_integral _ _ H1); lra. }
    unfold send_progress.
    destruct (Qltb_spec (s_pd s') 100) as [C'|_]; [exfalso; lra|]. cbn [andb].
    rewrite (trunc_comp _ _ POT).
    assert (P100 : (trunc (potential (p' :: rest)) <= 100)%Z) by (apply trunc_upper; exact PB2).
    assert (P0 : (0 <= trunc (potential (p' :: rest)))%Z). { apply trunc_ge. change (inject_Z 0) with 0. lra. }
    destruct (Z.leb_spec (trunc (potential (p' :: rest))) 100); [|lia].
    eexists. split; [reflexivity|]. cbn [r_pct]. split.
    + split; [reflexivity|]. split; [exact STK|]. intros _. split; [lia|]. split; [lia|]. intros _. split.
      * constructor; [exact F1|exact FR].
      * exists p', rest. split; [reflexivity|]. split; [exact TP|]. unfold p'. cbn [set_pd set_done s_done s_total]. lia.
    + repeat split; cbn [r_pct r_depth r_finished List.length]; try lia.
      intros [RB _]. discriminate.
Qed.

Lemma end_ok stack sh L n ok sh' : inv stack sh L -> nest sh (OpEnd n ok) = Some sh' ->
  step_ok stack sh' L (end_step stack n ok).
Proof.
  intros INV HN. pose proof INV as (HM & HS & HL). subst sh. destruct stack as [|s anc]; [discriminate HN|].
  assert (EN : nest (map opened (s :: anc)) (OpEnd n ok) =
    if String.eqb (s_name s) n && (negb ok || Nat.eqb (s_done s) (s_total s))
    then Some (match map opened anc with
               | [] => []
               | p :: r => mkOpen (o_name p) (o_weight p) (o_total p) (o_done p + s_weight s) (o_last p) :: r
               end) else None) by reflexivity.
  rewrite EN in HN. clear EN.
  destruct (String.eqb_spec (s_name s) n) as [<-|]; [|discriminate]. cbn [andb] in HN.
  destruct (negb ok || Nat.eqb (s_done s) (s_total s)) eqn:EO; [|discriminate]. injection HN as HN.
  destruct (HL ltac:(discriminate)) as (LB & LP & LJ).
  unfold end_step. cbn [set_pd s_total s_done].
  pose proof HS as HS0. destruct HS as (B & D & LA & K & R & HS).
  destruct (Nat.ltb_spec (s_total s) (s_done s)) as [|_]; [lia|].
  assert (E1 : ok && Nat.ltb (s_done s) (s_total s) = false).
  { destruct ok; [|reflexivity]. cbn in EO. apply Nat.eqb_eq in EO. rewrite EO. apply Nat.ltb_irrefl. }
  rewrite E1. clear E1.
  set (s1 := if ok then _ else _).
  assert (S1 : s_name s1 = s_name s /\ s_weight s1 = s_weight s /\ s_pt s1 = s_pt s /\ s_pd s1 = s_pt s /\ s_last s1 = s_last s /\ s_total s1 = s_total s)
    by (unfold s1; destruct ok; repeat split).
  clearbody s1. destruct S1 as (N1 & W1 & P1 & D1 & L1 & T1). rewrite N1, String.eqb_refl. cbn [negb].
  destruct anc as [|p rest]; cbn [map] in HN; subst sh'.
  - (* the outermost step *)
    destruct R as (PT & LZ). cbn [bind]. unfold send_progress. rewrite D1.
    destruct (Qltb_spec (s_pt s) 100) as [C|_]; [exfalso; lra|]. cbn [andb].
    assert (T100 : trunc (s_pt s) = 100%Z). { rewrite (trunc_comp _ _ PT). reflexivity. }
    rewrite T100. replace (100 <=? 100)%Z with true by reflexivity. cbn [bind tl].
    eexists _, _. split; [reflexivity|]. right. eexists. split; [reflexivity|]. cbn [r_pct]. split.
    + split; [reflexivity|]. split; [exact Logic.I|]. intros C. now destruct C.
    + repeat split; cbn [r_pct r_depth r_finished]; try lia.
      intros [_ RB]. discriminate.
  - pose proof (passed_bounds s (proj1 B) LA) as PB. cbn [o_name o_weight o_total o_done o_last opened].
    assert (FIN : forall s' q, 0 <= s_pd s' <= s_pt s -> (s_last s = 0%Z -> s_pd s' == s_pt s) -> q == s_pd p + s_pt s - passed s ->
      step_ok (s :: p :: rest) (map opened (set_pd (set_done p (s_done p + s_weight s)) q :: rest)) L
       (do stack <- (if (trunc (s_pd s') <=? trunc q)%Z then Ok (s' :: set_pd (set_done p (s_done p + s_weight s)) q :: rest) else Abort) ;;
        do r <- send_progress stack true ;; Ok (tl stack, [r]))).
    { intros s' q A1 A2 A3. destruct (close_ok s p rest L s' q INV A1 A2 A3) as (T & r & R1 & R2 & R3).
      destruct (Z.leb_spec (trunc (s_pd s')) (trunc q)); [|lia]. cbn [bind]. rewrite R1. cbn [bind tl].
      eexists _, _. split; [reflexivity|]. right. exists r. auto. }
    rewrite W1, L1, D1.
    destruct (Z.eqb_spec (s_last s) 0) as [LZ|LZ]; cbn [negb].
    + cbn [bind]. specialize (FIN s1 (s_pd p + s_pt s)). rewrite D1 in FIN |- *. apply FIN; [lra|reflexivity|].
      rewrite (passed_0 _ LZ). ring.
    + unfold set_percentage. rewrite N1, String.eqb_refl, L1. cbn [negb].
      destruct (Z.ltb_spec (100 - s_last s) 1) as [C|C].
      * cbn [bind]. specialize (FIN s1 (s_pd p)). cbn [set_done set_pd s_pd]. 
        assert (E : set_pd (set_done p (s_done p + s_weight s)) (s_pd p) = set_done p (s_done p + s_weight s)) by reflexivity.
        rewrite E in FIN. apply FIN; [rewrite D1; lra|congruence|].
        assert (E100 : s_last s = 100%Z) by lia. unfold passed. rewrite E100. change (inject_Z 100 / 100) with (100 * / 100).
        field.
      * rewrite Z.eqb_refl. cbn [bind].
        pose proof (frac_bounds (100 - s_last s) ltac:(lia)) as FB.
        rewrite P1.
        match goal with |- context [?a :: set_pd ?b ?c :: rest] => specialize (FIN a c) end.
        cbn [set_last set_pd set_done s_pd s_name s_weight s_total s_done s_pt s_last] in FIN |- *.
        apply FIN; [|contradiction|].
        -- set (f := inject_Z (100 - s_last s) / 100) in *. clearbody f. nra.
        -- rewrite frac_sub. unfold passed. change (inject_Z 100) with 100. field.
Qed.

Lemma op_ok stack sh L o sh' : inv stack sh L -> nest sh o = Some sh' -> step_ok stack sh' L (do_op stack o).
Proof.
  intros INV HN. destruct o as [n sub w|n c|n|n ok]; cbn [do_op].
  - eapply begin_ok; eauto.
  - pose proof INV as (HM & _). subst sh. destruct stack as [|s [|p rest]]; try discriminate HN.
    cbn [map nest] in HN. cbn [opened o_name o_total o_last o_weight] in HN.
    destruct (String.eqb_spec (s_name s) n) as [E|]; [|discriminate]. destruct (Nat.eqb_spec (s_total s) 0) as [T|]; [|discriminate].
    destruct (Z.leb_spec 0 c) as [C0|]; [|discriminate]. destruct (Z.leb_spec c 100) as [C1|]; [|discriminate].
    cbn [andb] in HN. injection HN as <-. apply (set_ok s p rest L n c INV E T). lia.
  - pose proof INV as (HM & HS & _). subst sh. destruct stack as [|s [|p rest]]; try discriminate HN.
    cbn [map nest] in HN. cbn [opened o_name o_total o_last o_weight] in HN.
    destruct (String.eqb_spec (s_name s) n) as [E|]; [|discriminate]. destruct (Nat.eqb_spec (s_total s) 0) as [T|]; [|discriminate].
    destruct (Z.ltb_spec (s_last s) 100) as [C0|]; [|discriminate].
    cbn [andb] in HN. injection HN as <-. unfold inc_percentage.
    destruct HS as (_ & _ & LA & _).
    pose proof (set_ok s p rest L n (s_last s + 1) INV E T ltac:(lia)) as R. rewrite Z.max_r in R by lia. exact R.
  - eapply end_ok; eauto.
Qed.

Lemma c28_ok : forall ops open,
  nested [] ops = Some open ->
  exists stack reps, do_ops [] ops = Ok (stack, reps) /\
    map s_name stack = map o_name open /\
    monotone 0 reps /\
    Forall (fun r => (0 <= r_pct r <= 100)%Z /\
                     (root_begin r -> r_pct r = 0%Z) /\
                     (r_depth r = 1%nat -> r_finished r = true -> r_pct r = 100%Z)) reps.
Proof.
  assert (G : forall ops stack sh L open, inv stack sh L -> nested sh ops = Some open ->
    exists stack' reps, do_ops stack ops = Ok (stack', reps) /\ map s_name stack' = map o_name open /\ monotone L reps /\
      Forall (fun r => (0 <= r_pct r <= 100)%Z /\ (root_begin r -> r_pct r = 0%Z) /\
                     (r_depth r = 1%nat -> r_finished r = true -> r_pct r = 100%Z)) reps).
  { induction ops as [|o ops IH]; intros stack sh L open INV HN; cbn [nested] in HN.
    - injection HN as <-. exists stack, []. split; [reflexivity|]. split; [|split; [exact Logic.I|constructor]].
      destruct INV as (-> & _). rewrite map_map. reflexivity.
    - destruct (nest sh o) as [sh'|] eqn:E; [|discriminate].
      destruct (op_ok _ _ _ _ _ INV E) as (st & reps & R1 & [(R2 & R3)|(r & R2 & R3 & G1 & G2 & G3 & G4)]).
      + destruct (IH st sh' L open R3 HN) as (st' & reps' & I1 & I2 & I3 & I4).
        exists st', reps'. cbn [do_ops]. rewrite R1. cbn [bind]. rewrite I1. cbn [bind]. subst reps. auto.
      + destruct (IH st sh' (r_pct r) open R3 HN) as (st' & reps' & I1 & I2 & I3 & I4).
        exists st', (r :: reps'). cbn [do_ops]. rewrite R1. cbn [bind]. rewrite I1. cbn [bind]. subst reps.
        split; [reflexivity|]. split; [exact I2|]. split; [split; [exact G1|exact I3]|]. constructor; [auto|exact I4]. }
  intros ops open. apply G. split; [reflexivity|]. split; [exact Logic.I|]. intros C. now destruct C.
Qed.

(** an explicit percentage on a step which has substeps is not rejected (the check is
    [substeps_total < 0]); the report goes down when the step has passed more than its share *)
Lemma c28_explicit_refuted :
  exists ops stack reps, do_ops [] ops = Ok (stack, reps) /\ map r_pct reps = [0; 0; 0; 50; 49]%Z /\ ~ monotone 0 reps.
Proof.
  eexists [OpBegin "a" 2 1; OpBegin "b" 1 1; OpBegin "c" 0 1; OpEnd "c" true; OpSet "b" 99], _, _.
  split; [vm_compute; reflexivity|]. split; [reflexivity|].
  cbn. intros (_ & _ & _ & _ & [H|[H _]] & _); [lia|discriminate].
Qed.
