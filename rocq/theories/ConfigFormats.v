From Verif Require Import Base BaseLemmas KeyFile Config ConfigSpec.

Definition step_tok (m : N) (set modify : bool) (t : ftoken) : N * bool * bool :=
  match t with
  | FSet f => (N.lor (if set then m else 0) (N.shiftl 1 f), true, modify)
  | FAdd f => (N.lor m (N.shiftl 1 f), set, true)
  | FDel f => (N.ldiff m (N.shiftl 1 f), set, true)
  end.

Lemma eqb_cons a s b t : String.eqb (String a s) (String b t) = Ascii.eqb a b && String.eqb s t.
Proof. cbn. destruct (Ascii.eqb a b); reflexivity. Qed.

Lemma in_ftokens_bit w f : format_bit w = Some f ->
  In (w, FSet f) ftokens /\ In (("+" ++ w)%string, FAdd f) ftokens /\ In (("-" ++ w)%string, FDel f) ftokens.
Proof.
  unfold format_bit.
  destruct (String.eqb_spec w "plain") as [->|]; [intros [= <-]; cbn; tauto|].
  destruct (String.eqb_spec w "verity") as [->|]; [intros [= <-]; cbn; tauto|].
  destruct (String.eqb_spec w "crypt") as [->|]; [intros [= <-]; cbn; tauto|]. discriminate.
Qed.

Lemma loop_tok w t r m set modify : is_ftoken w t ->
  formats_loop (w :: r) m set modify =
  (let '(m', set', modify') := step_tok m set modify t in formats_loop r m' set' modify').
Proof.
  unfold is_ftoken, ftokens. cbn [In].
  intros H. repeat (destruct H as [[= <- <-]|H]; [destruct set, modify; reflexivity|]). destruct H.
Qed.

Lemma loop_sound r : forall m set modify x, formats_loop r m set modify = Ok x ->
  exists toks, Forall2 is_ftoken (filter (fun w => negb (String.eqb w "")) r) toks /\
    x = fold_left (fun st t => let '(m, s, mo) := st in step_tok m s mo t) toks (m, set, modify).
Proof.
  induction r as [|w r IH]; intros m set modify x H.
  - cbn in H. apply Ok_inj in H. subst. exists []. split; [constructor|reflexivity].
  - destruct w as [|c t].
    + cbn [formats_loop] in H. destruct (IH _ _ _ _ H) as (toks & A & B). exists toks. auto.
    + cbn [formats_loop] in H. cbv zeta in H.
      destruct (format_bit (if Ascii.eqb c "-" || negb (Ascii.eqb c "-") && Ascii.eqb c "+" then t else String c t)) as [f|] eqn:F; [|discriminate].
      cbn [filter String.eqb negb].
      destruct (Ascii.eqb_spec c "-") as [->|NM]; [|destruct (Ascii.eqb_spec c "+") as [->|NP]]; cbn [orb andb negb] in F, H;
        destruct (in_ftokens_bit _ _ F) as (F1 & F2 & F3).
      * destruct (IH _ _ _ _ H) as (toks & A & B). exists (FDel f :: toks). split; [constructor; [exact F3|exact A]|].
        cbn [fold_left step_tok]. rewrite orb_true_r in B. rewrite B. reflexivity.
      * destruct (IH _ _ _ _ H) as (toks & A & B). exists (FAdd f :: toks). split; [constructor; [exact F2|exact A]|].
        cbn [fold_left step_tok]. rewrite orb_true_r in B. rewrite B. reflexivity.
      * destruct (IH _ _ _ _ H) as (toks & A & B). exists (FSet f :: toks). split; [constructor; [exact F1|exact A]|].
        cbn [fold_left step_tok]. rewrite !orb_false_r in B. rewrite B. reflexivity.
Qed.

Lemma loop_complete r : forall toks m set modify,
  Forall2 is_ftoken (filter (fun w => negb (String.eqb w "")) r) toks ->
  formats_loop r m set modify = Ok (fold_left (fun st t => let '(m, s, mo) := st in step_tok m s mo t) toks (m, set, modify)).
Proof.
  induction r as [|w r IH]; intros toks m set modify H.
  - inversion H; subst. reflexivity.
  - destruct w as [|c t].
    + cbn [formats_loop]. apply IH. exact H.
    + cbn [filter String.eqb negb] in H. inversion H as [|? tk ? toks' H1 H2]; subst. rewrite (loop_tok _ _ _ _ _ _ H1).
      destruct (step_tok m set modify tk) as [[m' s'] mo'] eqn:E. rewrite (IH toks' m' s' mo' H2). cbn [fold_left]. rewrite E. reflexivity.
Qed.

Lemma split_words s : filter (fun w => negb (String.eqb w "")) (g_strsplit " " s) = words s.
Proof. destruct s; reflexivity. Qed.

Definition run_toks := fold_left (fun st t => let '(m, s, mo) := st in step_tok m s mo t).

Lemma run_cons t toks m s mo : run_toks (t :: toks) (m, s, mo) = run_toks toks (step_tok m s mo t).
Proof. reflexivity. Qed.

Lemma shift_bit f g : N.testbit (N.shiftl 1 f) g = (g =? f)%N.
Proof.
  rewrite N.shiftl_1_l. destruct (N.eqb_spec g f) as [->|H]; [apply N.pow2_bits_true|]. apply N.pow2_bits_false. congruence.
Qed.

Lemma run_mod toks : forall m mo, Forall (fun t => ~ is_fset t) toks ->
  exists m', run_toks toks (m, false, mo) = (m', false, match toks with [] => mo | _ => true end) /\
    forall f, N.testbit m' f = modified toks f (N.testbit m f).
Proof.
  induction toks as [|t toks IH]; intros m mo H.
  - exists m. split; [reflexivity|]. reflexivity.
  - inversion H as [|? ? H1 H2]; subst. destruct t as [f|f|f]; [now destruct H1| |]; rewrite run_cons; cbn [step_tok].
    + destruct (IH (N.lor m (N.shiftl 1 f)) true H2) as (m' & A & B). exists m'. split.
      * rewrite A. now destruct toks.
      * intros g. rewrite B, N.lor_spec, shift_bit. cbn [modified]. destruct (N.eqb_spec g f); rewrite ?orb_true_r, ?orb_false_r; reflexivity.
    + destruct (IH (N.ldiff m (N.shiftl 1 f)) true H2) as (m' & A & B). exists m'. split.
      * rewrite A. now destruct toks.
      * intros g. rewrite B, N.ldiff_spec, shift_bit. cbn [modified]. destruct (N.eqb_spec g f); cbn [negb]; rewrite ?andb_true_r, ?andb_false_r; reflexivity.
Qed.

Lemma run_set toks : forall m set mo, Forall is_fset toks -> (set = true \/ toks <> []) ->
  exists m', run_toks toks (m, set, mo) = (m', true, mo) /\
    forall f, N.testbit m' f = true <-> (set = true /\ N.testbit m f = true) \/ In (FSet f) toks.
Proof.
  induction toks as [|t toks IH]; intros m set mo H HS.
  - destruct HS as [->|C]; [|now destruct C]. exists m. split; [reflexivity|]. intros f. cbn. tauto.
  - inversion H as [|? ? H1 H2]; subst. destruct t as [f|f|f]; [|destruct H1|destruct H1]. rewrite run_cons; cbn [step_tok].
    destruct (IH (N.lor (if set then m else 0%N) (N.shiftl 1 f)) true mo H2 (or_introl eq_refl)) as (m' & A & B).
    exists m'. split; [exact A|]. intros g. rewrite B, N.lor_spec, shift_bit, orb_true_iff, N.eqb_eq. cbn [In]. split.
    + intros [(_ & [K| ->])|K]; [|tauto|tauto]. left. destruct set; [tauto|]. rewrite N.bits_0 in K. discriminate.
    + intros [( -> & K)|[[= ->]|K]]; tauto.
Qed.

Lemma run_flags toks : forall m set mo,
  let '(_, s', mo') := run_toks toks (m, set, mo) in
  s' = (set || existsb (fun t => match t with FSet _ => true | _ => false end) toks) /\
  mo' = (mo || existsb (fun t => match t with FSet _ => false | _ => true end) toks).
Proof.
  induction toks as [|t toks IH]; intros m set mo.
  - cbn. now rewrite !orb_false_r.
  - rewrite run_cons.
    destruct t; cbn [step_tok existsb]; match goal with |- context [run_toks toks (?a, ?b, ?c)] => specialize (IH a b c) end;
    destruct (run_toks toks _) as [[m' s'] mo']; destruct IH as [-> ->];
    split; destruct set, mo; reflexivity.
Qed.

Lemma c30_ok : forall mask value result,
  parse_bundle_formats mask value = Ok result <->
  result <> 0%N /\
  exists toks, Forall2 is_ftoken (words value) toks /\
    ((toks <> [] /\ Forall is_fset toks /\ forall f, N.testbit result f = true <-> In (FSet f) toks) \/
     (Forall (fun t => ~ is_fset t) toks /\ forall f, N.testbit result f = modified toks f (N.testbit mask f))).
Proof.
  intros mask value result. unfold parse_bundle_formats. split.
  - intros H. destruct (formats_loop _ _ _ _) as [[[m s] mo]| |] eqn:L; try discriminate. cbn [bind] in H.
    destruct (s && mo) eqn:E; [discriminate|]. destruct (N.eqb_spec m 0); [discriminate|]. apply Ok_inj in H. subst m.
    split; [assumption|]. destruct (loop_sound _ _ _ _ _ L) as (toks & A & B). rewrite split_words in A. exists toks. split; [exact A|].
    fold run_toks in B. pose proof (run_flags toks mask false false) as RF. rewrite <- B in RF. destruct RF as [-> ->]. cbn [orb] in E.
    destruct (existsb (fun t => match t with FSet _ => true | _ => false end) toks) eqn:ES.
    + left. cbn [andb] in E. assert (FA : Forall is_fset toks).
      { apply Forall_forall. intros t Ht. destruct t; [exact Logic.I| |];
        (assert (existsb (fun t => match t with FSet _ => false | _ => true end) toks = true) by (apply existsb_exists; eexists; split; [exact Ht|reflexivity]); congruence). }
      assert (NE : toks <> []) by (intros ->; discriminate).
      destruct (run_set toks mask false false FA (or_intror NE)) as (m' & C & D). rewrite C in B. injection B as -> _.
      split; [exact NE|]. split; [exact FA|]. intros f. rewrite D. intuition congruence.
    + right. assert (FA : Forall (fun t => ~ is_fset t) toks).
      { apply Forall_forall. intros t Ht C. destruct t; [|destruct C|destruct C].
        assert (existsb (fun t => match t with FSet _ => true | _ => false end) toks = true) by (apply existsb_exists; eexists; split; [exact Ht|reflexivity]). congruence. }
      split; [exact FA|]. destruct (run_mod toks mask false FA) as (m' & C & D). rewrite C in B. injection B as -> _. exact D.
  - intros (NZ & toks & A & B). rewrite <- split_words in A. rewrite (loop_complete _ _ mask false false A). fold run_toks. cbn [bind].
    destruct B as [(NE & FA & D)|(FA & D)].
    + destruct (run_set toks mask false false FA (or_intror NE)) as (m' & C & E). rewrite C. cbn [andb].
      assert (M : m' = result). { apply N.bits_inj. intros f. destruct (N.testbit result f) eqn:R.
        - apply E. right. now apply D.
        - destruct (N.testbit m' f) eqn:R'; [|reflexivity]. apply E in R' as [[K _]|K]; [discriminate|]. apply D in K. congruence. }
      subst m'. destruct (N.eqb_spec result 0); [contradiction|reflexivity].
    + destruct (run_mod toks mask false FA) as (m' & C & E). rewrite C. cbn [andb].
      assert (M : m' = result) by (apply N.bits_inj; intros f; now rewrite E, D). subst m'.
      destruct (N.eqb_spec result 0); [contradiction|reflexivity].
Qed.
