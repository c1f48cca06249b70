From Verif Require Import Base BaseLemmas Semver SemverSpec.

(** *** decidable total orders *)
Record ord {A} (cmp : A -> A -> comparison) (lt : A -> A -> Prop) : Prop := {
  ord_eq : forall a b, cmp a b = Eq <-> a = b;
  ord_lt : forall a b, cmp a b = Lt <-> lt a b;
  ord_gt : forall a b, cmp a b = Gt <-> lt b a;
  ord_trans : forall a b c, lt a b -> lt b c -> lt a c
}.

Fixpoint lex_cmp {A} (cmp : A -> A -> comparison) (l l' : list A) : comparison :=
  match l, l' with
  | [], [] => Eq
  | [], _ => Lt
  | _, [] => Gt
  | a :: r, b :: r' => match cmp a b with Eq => lex_cmp cmp r r' | c => c end
  end.

Lemma ord_irrefl {A} (cmp : A -> A -> comparison) lt a : ord cmp lt -> ~ lt a a.
Proof.
  intros O H. apply (ord_lt _ _ O) in H. assert (cmp a a = Eq) by (apply (ord_eq _ _ O); auto). congruence.
Qed.

Lemma lex_ord {A} (cmp : A -> A -> comparison) lt : ord cmp lt -> ord (lex_cmp cmp) (lex_lt lt).
Proof.
  intros O. split.
  - induction a as [|x a IH]; destruct b as [|y b]; cbn; try (split; congruence).
    destruct (cmp x y) eqn:E.
    + rewrite IH. apply (ord_eq _ _ O) in E. subst. split; congruence.
    + split; [discriminate|]. intros H. inversion H; subst. assert (cmp y y = Eq) by (apply (ord_eq _ _ O); auto). congruence.
    + split; [discriminate|]. intros H. inversion H; subst. assert (cmp y y = Eq) by (apply (ord_eq _ _ O); auto). congruence.
  - induction a as [|x a IH]; destruct b as [|y b]; cbn; try (split; [discriminate|intros H; inversion H]).
    + split; [constructor|reflexivity].
    + destruct (cmp x y) eqn:E.
      * rewrite IH. apply (ord_eq _ _ O) in E. subst. split; [intros; now constructor|].
        intros H. inversion H; subst; [now destruct (ord_irrefl _ _ _ O H1)|auto].
      * split; [intros _; constructor; now apply (ord_lt _ _ O)|reflexivity].
      * split; [discriminate|]. intros H. apply (ord_gt _ _ O) in E. inversion H; subst.
        -- destruct (ord_irrefl _ _ y O). eapply (ord_trans _ _ O); eauto.
        -- now destruct (ord_irrefl _ _ _ O E).
  - induction a as [|x a IH]; destruct b as [|y b]; cbn; try (split; [discriminate|intros H; inversion H]).
    + split; [constructor|reflexivity].
    + destruct (cmp x y) eqn:E.
      * rewrite IH. apply (ord_eq _ _ O) in E. subst. split; [intros; now constructor|].
        intros H. inversion H; subst; [now destruct (ord_irrefl _ _ _ O H1)|auto].
      * split; [discriminate|]. intros H. apply (ord_lt _ _ O) in E. inversion H; subst.
        -- destruct (ord_irrefl _ _ y O). eapply (ord_trans _ _ O); eauto.
        -- now destruct (ord_irrefl _ _ _ O E).
      * split; [intros _; constructor; now apply (ord_gt _ _ O)|reflexivity].
  - induction a as [|x a IH]; intros b c H1 H2; inversion H1; subst; inversion H2; subst; try (now constructor).
    + apply lex_head. eapply (ord_trans _ _ O); eauto.
    + apply lex_tail. eauto.
Qed.

Lemma N_ord : ord N.compare N.lt.
Proof.
  split; intros.
  - apply N.compare_eq_iff.
  - reflexivity.
  - rewrite N.compare_gt_iff. reflexivity.
  - eapply N.lt_trans; eauto.
Qed.

Definition byte_cmp (x y : ascii) := (N_of_ascii x ?= N_of_ascii y)%N.
Lemma byte_ord : ord byte_cmp byte_lt.
Proof.
  unfold byte_cmp, byte_lt. split; intros.
  - rewrite N.compare_eq_iff. split; [|congruence]. intros H.
    rewrite <- (ascii_N_embedding a), <- (ascii_N_embedding b). congruence.
  - reflexivity.
  - rewrite N.compare_gt_iff. reflexivity.
  - eapply N.lt_trans; eauto.
Qed.

Lemma str_cmp_lex a b : str_cmp a b = lex_cmp byte_cmp (list_ascii_of_string a) (list_ascii_of_string b).
Proof.
  revert b; induction a as [|x a IH]; destruct b as [|y b]; cbn; try reflexivity.
  unfold byte_cmp at 1. destruct (N_of_ascii x ?= N_of_ascii y)%N; auto.
Qed.

Definition ident_cmp (a b : ident) : comparison :=
  match a, b with
  | Num x, Num y => (x ?= y)%N
  | Num _, Alpha _ => Lt
  | Alpha _, Num _ => Gt
  | Alpha s, Alpha t => str_cmp s t
  end.

Lemma list_ascii_inj a b : list_ascii_of_string a = list_ascii_of_string b -> a = b.
Proof. intros H. rewrite <- (string_of_list_ascii_of_string a), H. apply string_of_list_ascii_of_string. Qed.

Lemma ident_ord : ord ident_cmp ident_lt.
Proof.
  pose proof (lex_ord _ _ byte_ord) as LO. split.
  - intros [x|s] [y|t]; cbn; try (split; congruence).
    + rewrite N.compare_eq_iff. split; congruence.
    + rewrite str_cmp_lex, (ord_eq _ _ LO). split; intros H; [f_equal; now apply list_ascii_inj|congruence].
  - intros [x|s] [y|t]; cbn; try (split; [discriminate|tauto]); try (split; [auto|reflexivity]).
    + reflexivity.
    + rewrite str_cmp_lex. apply (ord_lt _ _ LO).
  - intros [x|s] [y|t]; cbn; try (split; [discriminate|tauto]); try (split; [auto|reflexivity]).
    + rewrite N.compare_gt_iff. reflexivity.
    + rewrite str_cmp_lex. apply (ord_gt _ _ LO).
  - intros [x|s] [y|t] [z|u]; cbn; try tauto.
    + apply N.lt_trans.
    + apply (ord_trans _ _ LO).
Qed.

(** *** the comparison *)
Definition id_of (s : string) : ident :=
  match string_to_unsigned s with Some n => Num n | None => Alpha s end.

Definition ver_of (v : semver) : version :=
  let '(a, b, c) := sv_core v in
  mkVersion [a; b; c] (option_map (fun p => map id_of (g_strsplit "." p)) (sv_pre v)).

Lemma fields_le_cmp fa fb :
  fields_le fa fb = match lex_cmp ident_cmp (map id_of fa) (map id_of fb) with Gt => false | _ => true end.
Proof.
  revert fb; induction fa as [|a fa IH]; destruct fb as [|b fb]; try reflexivity.
  cbn [fields_le map lex_cmp]. 
  assert (EA : id_of a = match string_to_unsigned a with Some n => Num n | None => Alpha a end) by reflexivity.
  assert (EB : id_of b = match string_to_unsigned b with Some n => Num n | None => Alpha b end) by reflexivity.
  rewrite EA, EB. destruct (string_to_unsigned a) as [x|], (string_to_unsigned b) as [y|]; cbn [ident_cmp]; try reflexivity.
  - destruct (N.compare_spec x y) as [E|E|E].
    + subst. rewrite !N.ltb_irrefl. apply IH.
    + apply N.ltb_lt in E. now rewrite E.
    + assert (x <? y = false)%N as -> by (apply N.ltb_ge; lia). apply N.ltb_lt in E. now rewrite E.
  - destruct (str_cmp a b); auto.
Qed.

Lemma core_cmp_lex a b : core_cmp a b =
  lex_cmp N.compare (let '(x, y, z) := a in [x; y; z]) (let '(x, y, z) := b in [x; y; z]).
Proof.
  destruct a as [[a1 a2] a3], b as [[b1 b2] b3]. cbn.
  destruct (N.compare_spec a1 b1); subst; rewrite ?N.ltb_irrefl;
  repeat match goal with H : (_ < _)%N |- _ => first [rewrite (proj2 (N.ltb_lt _ _) H) | idtac];
     assert (X := proj2 (N.ltb_ge _ _) (N.lt_le_incl _ _ H)); rewrite ?X; clear H X end; auto.
  destruct (N.compare_spec a2 b2); subst; rewrite ?N.ltb_irrefl;
  repeat match goal with H : (_ < _)%N |- _ => first [rewrite (proj2 (N.ltb_lt _ _) H) | idtac];
     assert (X := proj2 (N.ltb_ge _ _) (N.lt_le_incl _ _ H)); rewrite ?X; clear H X end; auto.
  destruct (N.compare_spec a3 b3); subst; rewrite ?N.ltb_irrefl;
  repeat match goal with H : (_ < _)%N |- _ => first [rewrite (proj2 (N.ltb_lt _ _) H) | idtac];
     assert (X := proj2 (N.ltb_ge _ _) (N.lt_le_incl _ _ H)); rewrite ?X; clear H X end; auto.
Qed.

Definition ver_cmp (a b : version) : comparison :=
  match lex_cmp N.compare (v_core a) (v_core b) with
  | Eq => match v_pre a, v_pre b with
          | None, None => Eq
          | None, Some _ => Gt
          | Some _, None => Lt
          | Some p, Some q => lex_cmp ident_cmp p q
          end
  | c => c
  end.

Lemma ver_ord : ord ver_cmp version_lt.
Proof.
  pose proof (lex_ord _ _ N_ord) as LN. pose proof (lex_ord _ _ ident_ord) as LI.
  unfold ver_cmp, version_lt. split.
  - intros [ca pa] [cb pb]; cbn. destruct (lex_cmp N.compare ca cb) eqn:E.
    + apply (ord_eq _ _ LN) in E. subst. destruct pa as [p|], pb as [q|]; try (split; congruence).
      rewrite (ord_eq _ _ LI). split; congruence.
    + split; [discriminate|]. intros H. inversion H; subst.
      assert (X : lex_cmp N.compare cb cb = Eq) by (now apply (ord_eq _ _ LN)). congruence.
    + split; [discriminate|]. intros H. inversion H; subst.
      assert (X : lex_cmp N.compare cb cb = Eq) by (now apply (ord_eq _ _ LN)). congruence.
  - intros [ca pa] [cb pb]; cbn. destruct (lex_cmp N.compare ca cb) eqn:E.
    + apply (ord_eq _ _ LN) in E. subst. pose proof (ord_irrefl _ _ cb LN).
      destruct pa as [p|], pb as [q|]; try rewrite (ord_lt _ _ LI); intuition discriminate.
    + apply (ord_lt _ _ LN) in E. tauto.
    + apply (ord_gt _ _ LN) in E. split; [discriminate|]. intros [H|[H _]].
      * destruct (ord_irrefl _ _ ca LN). eapply (ord_trans _ _ LN); eauto.
      * subst. now destruct (ord_irrefl _ _ cb LN).
  - intros [ca pa] [cb pb]; cbn. destruct (lex_cmp N.compare ca cb) eqn:E.
    + apply (ord_eq _ _ LN) in E. subst. pose proof (ord_irrefl _ _ cb LN).
      destruct pa as [p|], pb as [q|]; try rewrite (ord_gt _ _ LI); intuition discriminate.
    + apply (ord_lt _ _ LN) in E. split; [discriminate|]. intros [H|[H _]].
      * destruct (ord_irrefl _ _ ca LN). eapply (ord_trans _ _ LN); eauto.
      * subst. now destruct (ord_irrefl _ _ ca LN).
    + apply (ord_gt _ _ LN) in E. tauto.
  - intros [ca pa] [cb pb] [cc pc]; cbn. intros [H|[H H']] [G|[G G']]; subst; auto.
    + left. eapply (ord_trans _ _ LN); eauto.
    + right. split; [reflexivity|]. destruct pa as [p|], pb as [q|], pc as [r|]; try tauto.
      eapply (ord_trans _ _ LI); eauto.
Qed.

Lemma le_cmp a b : version_le a b <-> ver_cmp a b <> Gt.
Proof.
  unfold version_le. rewrite <- (ord_eq _ _ ver_ord a b), <- (ord_lt _ _ ver_ord a b).
  destruct (ver_cmp a b); intuition congruence.
Qed.

Lemma semver_le_spec a b va vb : semver_parse a = Some va -> semver_parse b = Some vb ->
  exists r, semver_less_equal a b = Ok r /\ (r = true <-> version_le (ver_of va) (ver_of vb)).
Proof.
  intros Ha Hb. unfold semver_less_equal. rewrite Ha, Hb. eexists. split; [reflexivity|].
  rewrite le_cmp. unfold ver_cmp, ver_of. destruct va as [[[a1 a2] a3] pa], vb as [[[b1 b2] b3] pb].
  cbn [sv_core sv_pre v_core v_pre]. rewrite core_cmp_lex.
  destruct (lex_cmp N.compare [a1; a2; a3] [b1; b2; b3]); [|intuition congruence|intuition congruence].
  destruct pa as [pa|], pb as [pb|]; cbn [option_map]; try (intuition congruence).
  rewrite fields_le_cmp. destruct (lex_cmp ident_cmp _ _); intuition congruence.
Qed.

(** *** preorder on all strings *)
Lemma c15_preorder_ok :
  (forall a r, semver_less_equal a a = r -> r = Ok true \/ r = Err) /\
  (forall a b c, semver_less_equal a b = Ok true -> semver_less_equal b c = Ok true -> semver_less_equal a c = Ok true) /\
  (forall a b, semver_less_equal a b = Ok false -> semver_less_equal b a = Ok true) /\
  (forall a b, semver_less_equal a b = Err <->
     semver_less_equal a a = Err \/ semver_less_equal b b = Err) /\
  (forall a b, semver_less_equal a b <> Abort).
Proof.
  assert (Cases : forall a b, (semver_parse a = None \/ semver_parse b = None) /\ semver_less_equal a b = Err \/
            exists va vb, semver_parse a = Some va /\ semver_parse b = Some vb /\
              exists r, semver_less_equal a b = Ok r /\ (r = true <-> version_le (ver_of va) (ver_of vb))).
  { intros a b. destruct (semver_parse a) as [va|] eqn:Ea, (semver_parse b) as [vb|] eqn:Eb;
      try (left; split; [auto|]; unfold semver_less_equal; rewrite Ea, ?Eb; reflexivity).
    right. exists va, vb. repeat split; auto. now apply semver_le_spec. }
  repeat split.
  - intros a r <-. destruct (Cases a a) as [[_ H]|(va & vb & H1 & H2 & r & H3 & H4)]; [auto|].
    left. rewrite H3. f_equal. apply H4. left. congruence.
  - intros a b c Hab Hbc.
    destruct (Cases a b) as [[_ H]|(va & vb & H1 & H2 & r & H3 & H4)]; [congruence|].
    destruct (Cases b c) as [[_ H]|(vb' & vc & H1' & H2' & r' & H3' & H4')]; [congruence|].
    destruct (Cases a c) as [[[H|H] _]|(va' & vc' & H1'' & H2'' & r'' & H3'' & H4'')]; [congruence|congruence|].
    rewrite H3''. f_equal. apply H4''.
    assert (va' = va) by congruence. assert (vb' = vb) by congruence. assert (vc' = vc) by congruence. subst.
    rewrite Hab in H3. apply Ok_inj in H3. subst r. rewrite Hbc in H3'. apply Ok_inj in H3'. subst r'.
    destruct (proj1 H4 eq_refl) as [->|L1]; [now apply H4'|].
    destruct (proj1 H4' eq_refl) as [<-|L2]; [now right|]. right. eapply (ord_trans _ _ ver_ord); eauto.
  - intros a b Hab.
    destruct (Cases a b) as [[_ H]|(va & vb & H1 & H2 & r & H3 & H4)]; [congruence|].
    destruct (Cases b a) as [[[H|H] _]|(vb' & va' & H1'' & H2'' & r'' & H3'' & H4'')]; [congruence|congruence|].
    rewrite H3''. f_equal. apply H4''. assert (va' = va) by congruence. assert (vb' = vb) by congruence. subst.
    rewrite Hab in H3. apply Ok_inj in H3. subst r. rewrite le_cmp in *.
    destruct (ver_cmp (ver_of va) (ver_of vb)) eqn:E.
    + destruct H4 as [_ H4]. discriminate H4. congruence.
    + destruct H4 as [_ H4]. discriminate H4. congruence.
    + intros X. apply (ord_gt _ _ ver_ord) in X, E. destruct (ord_irrefl _ _ (ver_of va) ver_ord).
      eapply (ord_trans _ _ ver_ord); eauto.
  - intros H. destruct (Cases a b) as [[[E|E] _]|(va & vb & H1 & H2 & r & H3 & H4)]; [| |congruence].
    + left. unfold semver_less_equal. now rewrite E.
    + right. unfold semver_less_equal. now rewrite E.
  - intros [H|H]; unfold semver_less_equal in *.
    + destruct (semver_parse a); [discriminate|reflexivity].
    + destruct (semver_parse a); [|reflexivity]. destruct (semver_parse b); [discriminate|reflexivity].
  - intros a b H. destruct (Cases a b) as [[_ E]|(va & vb & H1 & H2 & r & H3 & H4)]; congruence.
Qed.

(** *** written versions *)
Lemma split_last_none c s : no_char c s = true -> split_last c s = None.
Proof.
  induction s as [|a s IH]; cbn; [reflexivity|]. intros H. apply andb_true_iff in H as [H1 H2].
  rewrite IH by exact H2. apply negb_true_iff in H1. now rewrite H1.
Qed.

Lemma split_last_app c x y : no_char c y = true -> split_last c (x ++ String c y) = Some (x, y).
Proof.
  intros H. induction x as [|a x IH]; cbn.
  - rewrite split_last_none by exact H. now rewrite Ascii.eqb_refl.
  - now rewrite IH.
Qed.

Lemma split_last_some c s x y : split_last c s = Some (x, y) -> s = (x ++ String c y)%string /\ no_char c y = true.
Proof.
  revert x; induction s as [|a s IH]; cbn; intros x H; [discriminate|].
  destruct (split_last c s) as [[u v]|] eqn:E.
  - inversion H; subst. destruct (IH u eq_refl) as [-> Hy]. auto.
  - destruct (Ascii.eqb_spec a c); [|discriminate]. inversion H; subst. split; [reflexivity|].
    clear -E. induction y as [|b y IH]; [reflexivity|]. cbn in E. destruct (split_last c y) as [[]|]; [discriminate|].
    destruct (Ascii.eqb b c) eqn:Eb; [discriminate|]. cbn. rewrite Eb. auto.
Qed.

Definition dec_digit (a : ascii) : bool := match digit_val a with Some d => (d <? 10)%N | None => false end.

Lemma dec_digit_range a : dec_digit a = (48 <=? N_of_ascii a)%N && (N_of_ascii a <=? 57)%N.
Proof. destruct a as [[] [] [] [] [] [] [] []]; reflexivity. Qed.

Lemma dec_digit_plain a : dec_digit a = true ->
  g_isspace a = false /\ strtol_space a = false /\ is_sign a = false /\ Ascii.eqb a "." = false /\
  Ascii.eqb a "-" = false /\ Ascii.eqb a "+" = false.
Proof. destruct a as [[] [] [] [] [] [] [] []]; cbn; intros H; try discriminate; auto 10. Qed.

Lemma all_chars_ext p q s : (forall a, p a = q a) -> all_chars p s = all_chars q s.
Proof. intros H. induction s; cbn; congruence. Qed.

Lemma to_unsigned_digits s : s <> "" -> all_chars dec_digit s = true ->
  string_to_unsigned s = if (ullong_max <? horner 10 0 s)%N then None else Some (horner 10 0 s).
Proof.
  intros Hne H. destruct s as [|c s]; [congruence|]. assert (Hc : dec_digit c = true).
  { cbn [all_chars] in H. now apply andb_true_iff in H as [H1 _]. }
  destruct (dec_digit_plain _ Hc) as (P1 & P2 & P3 & P4 & P5 & P6).
  unfold string_to_unsigned. rewrite P1, P3. cbn [orb]. cbn [skip_space]. rewrite P2, P5, P6.
  assert (all_chars (fun a => match digit_val a with Some d => (d <? 10)%N | None => false end) (String c s) = true) as ->
    by exact H. reflexivity.
Qed.

Lemma to_unsigned_print n : (n < 2 ^ 64)%N -> string_to_unsigned (print_num 10 n) = Some n.
Proof.
  intros H. rewrite to_unsigned_digits.
  - rewrite horner_print by lia. destruct (N.ltb_spec ullong_max n); [|reflexivity]. unfold ullong_max in *. lia.
  - apply print_num_nonempty.
  - pose proof (print_num_chars 10 n ltac:(lia)) as X. revert X. apply all_chars_impl. intros c Hc. exact Hc.
Qed.

Lemma print_plain n c : dec_digit c = false -> no_char c (print_num 10 n) = true.
Proof.
  intros Hc. pose proof (print_num_chars 10 n ltac:(lia)) as X. revert X. apply all_chars_impl. intros a Ha.
  destruct (Ascii.eqb_spec a c); [subst|reflexivity]. unfold dec_digit, is_digit in *. congruence.
Qed.

Lemma split_max_cons c m w s : no_char c w = true -> split_max c (S m) (w ++ String c s) = w :: split_max c m s.
Proof.
  intros H. induction w as [|a w IH].
  - cbn [append split_max]. now rewrite Ascii.eqb_refl.
  - cbn in H. apply andb_true_iff in H as [H1 H2]. apply negb_true_iff in H1. specialize (IH H2).
    cbn [split_max append] in IH |- *. rewrite H1. rewrite IH. reflexivity.
Qed.

Lemma split_max_word c m w : no_char c w = true -> split_max c m w = [w].
Proof.
  intros H. destruct m as [|m]; [reflexivity|]. induction w as [|a w IH]; [reflexivity|].
  cbn in H. apply andb_true_iff in H as [H1 H2]. apply negb_true_iff in H1. specialize (IH H2).
  cbn [split_max] in IH |- *. now rewrite H1, IH.
Qed.

Lemma g_strsplit_max_ne c m s : s <> "" -> g_strsplit_max c m s = split_max c (m - 1) s.
Proof. destruct s; [congruence|reflexivity]. Qed.

Lemma parse_core_written nums : 1 <= List.length nums <= 3 -> Forall (fun n => n < 2 ^ 64)%N nums ->
  exists a b c, parse_core (join "." (map (print_num 10) nums)) = Some (a, b, c) /\ pad3 nums = [a; b; c].
Proof.
  intros Hl HF. 
  assert (D : forall n, no_char "." (print_num 10 n) = true) by (intros n; apply print_plain; reflexivity).
  assert (NE : forall n s, (print_num 10 n ++ s)%string <> "").
  { intros n s. destruct (print_num 10 n) eqn:E; [now destruct (print_num_nonempty 10 n)|discriminate]. }
  unfold parse_core. destruct nums as [|x [|y [|z [|]]]]; cbn in Hl; try lia; cbn [map join].
  - inversion HF; subst. rewrite g_strsplit_max_ne by apply print_num_nonempty.
    rewrite split_max_word by apply D. rewrite to_unsigned_print by assumption. repeat eexists.
  - inversion HF as [|? ? Hx HF2]; subst. inversion HF2; subst.
    rewrite g_strsplit_max_ne by apply NE. cbn [Nat.sub append]. rewrite split_max_cons by apply D.
    rewrite split_max_word by apply D. rewrite !to_unsigned_print by assumption. repeat eexists.
  - inversion HF as [|? ? Hx HF2]; subst. inversion HF2 as [|? ? Hy HF3]; subst. inversion HF3; subst.
    rewrite g_strsplit_max_ne by apply NE. cbn [Nat.sub append]. rewrite !split_max_cons by apply D.
    cbn [split_max]. rewrite !to_unsigned_print by assumption. repeat eexists.
Qed.

Lemma no_char_join c sep l : no_char c sep = true -> Forall (fun w => no_char c w = true) l ->
  no_char c (join sep l) = true.
Proof.
  intros Hs H. induction H as [|w l Hw Hl IH]; [reflexivity|]. destruct l as [|w' l]; [exact Hw|].
  change (no_char c (w ++ (sep ++ join sep (w' :: l)))%string = true). rewrite !no_char_app, Hw, Hs, IH. reflexivity.
Qed.

Lemma ident_str_plain i c : ident_ok i -> (c = "." \/ c = "-" \/ c = "+")%char -> no_char c (ident_str i) = true.
Proof.
  intros Hi Hc. destruct i as [n|s]; cbn.
  - apply print_plain. destruct Hc as [->|[->| ->]]; reflexivity.
  - destruct Hi as (_ & _ & H). revert H. apply all_chars_impl. intros a. rewrite !andb_true_iff.
    intros ((((_ & _) & H1) & H2) & H3). destruct Hc as [->|[->| ->]]; assumption.
Qed.

Lemma ident_str_ne i : ident_ok i -> ident_str i <> "".
Proof. destruct i as [n|s]; cbn; [intros _; apply print_num_nonempty|tauto]. Qed.

Lemma ident_round i : ident_ok i -> id_of (ident_str i) = i.
Proof.
  unfold id_of. destruct i as [n|s]; cbn [ident_str ident_ok].
  - intros H. now rewrite to_unsigned_print.
  - intros (H1 & H2 & H3). destruct s as [|c s]; [congruence|].
    assert (Hc : all_chars (fun a => negb (strtol_space a) && negb (is_sign a)) (String c s) = true).
    { revert H3. apply all_chars_impl. intros a. rewrite !andb_true_iff, !negb_true_iff.
      intros ((((P1 & P2) & P3) & P4) & P5). unfold strtol_space, is_sign. rewrite P1, P2, P4, P5. auto. }
    cbn [all_chars] in Hc. apply andb_true_iff in Hc as [Hc _]. apply andb_true_iff in Hc as [Hc1 Hc2].
    apply negb_true_iff in Hc1, Hc2. unfold string_to_unsigned.
    assert (g_isspace c = false) as -> by (unfold strtol_space in Hc1; now apply orb_false_iff in Hc1 as [? _]).
    rewrite Hc2. cbn [orb skip_space]. rewrite Hc1. unfold is_sign in Hc2. apply orb_false_iff in Hc2 as [-> ->].
    unfold all_digits in H1. apply andb_false_iff in H1. destruct H1 as [H1|H1]; [discriminate|].
    assert (all_chars (fun a => match digit_val a with Some d => (d <? 10)%N | None => false end) (String c s) = false) as ->.
    { etransitivity; [|exact H1]. apply all_chars_ext. intros a. exact (dec_digit_range a). }
    reflexivity.
Qed.

Lemma parse_written nums pre build : written_ok nums pre build ->
  exists v, semver_parse (written nums pre build) = Some v /\ ver_of v = mkVersion (pad3 nums) pre.
Proof.
  intros (Hl & HF & Hp & Hb). destruct (parse_core_written nums Hl HF) as (a & b & c & Hc & Hpad).
  unfold semver_parse, written.
  set (core := join "." (map (print_num 10) nums)) in *.
  set (ps := match pre with Some l => ("-" ++ join "." (map ident_str l))%string | None => ""%string end).
  assert (Ncore : forall ch, (ch = "-" \/ ch = "+")%char -> no_char ch core = true).
  { intros ch Hch. apply no_char_join; [destruct Hch as [->| ->]; reflexivity|].
    apply Forall_forall. intros w Hw. apply in_map_iff in Hw as (n & <- & _). apply print_plain.
    destruct Hch as [->| ->]; reflexivity. }
  assert (Nps : no_char "+" ps = true).
  { unfold ps. destruct pre as [l|]; [|reflexivity]. rewrite no_char_app. apply andb_true_iff. split; [reflexivity|].
    apply no_char_join; [reflexivity|]. apply Forall_forall. intros w Hw. apply in_map_iff in Hw as (i & <- & Hi).
    apply ident_str_plain; [|auto]. destruct Hp as [_ Hp]. rewrite Forall_forall in Hp. auto. }
  assert (S1 : (match split_last "+" (core ++ ps ++ match build with Some b0 => "+" ++ b0 | None => "" end)%string with
               Some (x, _) => x | None => (core ++ ps ++ match build with Some b0 => "+" ++ b0 | None => "" end)%string end)
            = (core ++ ps)%string).
  { destruct build as [bb|].
    - rewrite <- app_assoc_s. change ("+" ++ bb)%string with (String "+" bb). now rewrite split_last_app.
    - rewrite app_nil_r_s. rewrite split_last_none; [reflexivity|]. rewrite no_char_app, Nps, Ncore by auto. reflexivity. }
  rewrite S1. unfold ps. destruct pre as [l|].
  - change ("-" ++ join "." (map ident_str l))%string with (String "-" (join "." (map ident_str l))).
    assert (Nl : forall ch, (ch = "." \/ ch = "-" \/ ch = "+")%char -> Forall (fun w => no_char ch w = true) (map ident_str l)).
    { intros ch Hch. apply Forall_forall. intros w Hw. apply in_map_iff in Hw as (i & <- & Hi).
      apply ident_str_plain; [|auto]. destruct Hp as [_ Hp]. rewrite Forall_forall in Hp. auto. }
    rewrite split_last_app by (apply no_char_join; [reflexivity|apply Nl; auto]).
    rewrite Hc. eexists. split; [reflexivity|]. unfold ver_of. cbn [sv_core sv_pre option_map]. f_equal; [auto|].
    f_equal. destruct Hp as [Hne Hp].
    assert (G : g_strsplit "." (join "." (map ident_str l)) = map ident_str l).
    { unfold g_strsplit. destruct (join "." (map ident_str l)) eqn:E.
      - destruct l as [|i [|i' l']]; [congruence| |].
        + cbn in E. inversion Hp; subst. now destruct (ident_str_ne i).
        + exfalso. cbn [map join] in E. inversion Hp; subst.
          destruct (ident_str i) eqn:Ei; [now destruct (ident_str_ne i)|discriminate].
      - rewrite <- E. apply split_on_join; [destruct l; [congruence|discriminate]|apply Nl; auto]. }
    rewrite G. rewrite map_map. clear -Hp. induction Hp as [|i l Hi Hl IH]; [reflexivity|]. cbn [map].
    rewrite IH. f_equal. now apply ident_round.
  - rewrite app_nil_r_s. rewrite split_last_none by (apply Ncore; auto). rewrite Hc. eexists. split; [reflexivity|].
    unfold ver_of. cbn [sv_core sv_pre option_map]. now rewrite Hpad.
Qed.

Lemma c15_semver_ok : forall na pa ba nb pb bb,
  written_ok na pa ba -> written_ok nb pb bb ->
  exists r, semver_less_equal (written na pa ba) (written nb pb bb) = Ok r /\
    (r = true <-> version_le (mkVersion (pad3 na) pa) (mkVersion (pad3 nb) pb)).
Proof.
  intros na pa ba nb pb bb Ha Hb. destruct (parse_written _ _ _ Ha) as (va & Pa & <-).
  destruct (parse_written _ _ _ Hb) as (vb & Pb & <-). now apply semver_le_spec.
Qed.

(** Accepted strings *)
Lemma to_unsigned_some s n : no_char (ascii_of_nat 11) s = true -> string_to_unsigned s = Some n ->
  all_digits s = true /\ (n < 2 ^ 64)%N /\ n = horner 10 0 s.
Proof.
  intros Hv H. destruct s as [|c s]; [discriminate|]. unfold string_to_unsigned in H.
  destruct (g_isspace c) eqn:E1; [discriminate|]. destruct (is_sign c) eqn:E2; [discriminate|]. cbn [orb] in H.
  cbn in Hv. apply andb_true_iff in Hv as [Hv _].
  assert (E3 : strtol_space c = false).
  { unfold strtol_space. rewrite E1. cbn [orb]. destruct (N.eqb_spec (N_of_ascii c) 11) as [E|]; [|reflexivity].
    exfalso. assert (c = ascii_of_nat 11) by (rewrite <- (ascii_N_embedding c), E; reflexivity). subst. discriminate. }
  cbn [skip_space] in H. rewrite E3 in H. unfold is_sign in E2. apply orb_false_iff in E2 as [E4 E5].
  rewrite E4, E5 in H. cbn [andb] in H.
  destruct (all_chars _ (String c s)) eqn:E in H; [|discriminate].
  destruct (ullong_max <? horner 10 0 (String c s))%N eqn:EU; [discriminate|]. apply Some_inj in H. subst n.
  apply N.ltb_ge in EU. unfold ullong_max in EU. repeat split; [|lia].
  unfold all_digits. cbn [String.eqb negb andb]. etransitivity; [|exact E]. symmetry. apply all_chars_ext. intros a. exact (dec_digit_range a).
Qed.

Lemma split_max_join c m s : join (String c "") (split_max c m s) = s /\ 1 <= List.length (split_max c m s) <= S m.
Proof.
  revert s; induction m as [|m IH]; intros s; [cbn; auto|].
  induction s as [|a s IHs]; [cbn; split; [reflexivity|lia]|].
  cbn [split_max] in IHs |- *. destruct (Ascii.eqb_spec a c) as [->|N].
  - destruct (IH s) as [J L]. destruct (split_max c m s) as [|w ws] eqn:E; [cbn in L; lia|].
    cbn [join append List.length] in *. rewrite J. split; [reflexivity|lia].
  - destruct IHs as [J L]. match type of J with join _ ?x = _ => destruct x as [|w ws] eqn:E end; [cbn in L; lia|].
    rewrite <- J. destruct ws as [|w' ws]; cbn [join append List.length] in *; split; auto; lia.
Qed.

Lemma no_char_join_inv c sep l w : no_char c (join sep l) = true -> In w l -> no_char c w = true.
Proof.
  induction l as [|x l IH]; [intros _ []|]. destruct l as [|y l].
  - cbn. intros H [->|[]]. exact H.
  - intros H [->|Hin].
    + change (no_char c (w ++ (sep ++ join sep (y :: l)))%string = true) in H. rewrite no_char_app in H.
      now apply andb_true_iff in H.
    + apply IH; [|exact Hin]. change (no_char c (x ++ (sep ++ join sep (y :: l)))%string = true) in H.
      rewrite !no_char_app in H. apply andb_true_iff in H as [_ H]. now apply andb_true_iff in H.
Qed.

Lemma parse_core_sound t c : no_char (ascii_of_nat 11) t = true -> parse_core t = Some c ->
  exists parts, t = join "." parts /\ 1 <= List.length parts <= 3 /\ Forall (fun p => all_digits p = true) parts.
Proof.
  intros Hv H. exists (g_strsplit_max "." 3 t). unfold parse_core in H.
  destruct t as [|a t]; [discriminate|]. rewrite g_strsplit_max_ne in * by discriminate. cbn [Nat.sub] in *.
  destruct (split_max_join "." 2 (String a t)) as [J L]. split; [now rewrite J|]. split; [exact L|].
  assert (V : forall w, In w (split_max "." 2 (String a t)) -> no_char (ascii_of_nat 11) w = true).
  { intros w Hw. eapply no_char_join_inv; [|exact Hw]. rewrite J. exact Hv. }
  set (l := split_max "." 2 (String a t)) in *. clearbody l.
  destruct l as [|x [|y [|z [|]]]]; cbn in L; try lia.
  - destruct (string_to_unsigned x) eqn:E; [|discriminate]. repeat constructor. eapply to_unsigned_some; [|exact E]. apply V; now left.
  - destruct (string_to_unsigned x) eqn:E1; [|discriminate]. destruct (string_to_unsigned y) eqn:E2; [|discriminate].
    repeat constructor; (eapply to_unsigned_some; [|eassumption]; apply V; cbn; auto).
  - destruct (string_to_unsigned x) eqn:E1; [|discriminate]. destruct (string_to_unsigned y) eqn:E2; [|discriminate].
    destruct (string_to_unsigned z) eqn:E3; [|discriminate].
    repeat constructor; (eapply to_unsigned_some; [|eassumption]; apply V; cbn; auto).
Qed.

Lemma c15_accept_ok : forall s, no_char (ascii_of_nat 11) s = true -> semver_less_equal s s <> Err ->
  exists parts tail, s = (join "." parts ++ tail)%string /\
    1 <= List.length parts <= 3 /\ Forall (fun p => all_digits p = true) parts /\
    (tail = "" \/ exists r, tail = String "-" r \/ tail = String "+" r).
Proof.
  intros s Hv Hs. unfold semver_less_equal in Hs. destruct (semver_parse s) as [v|] eqn:E; [|congruence]. clear Hs.
  unfold semver_parse in E.
  assert (G : exists build, s = (match split_last "+" s with Some (x, _) => x | None => s end ++ build)%string /\
             (build = "" \/ exists b, build = String "+" b)).
  { destruct (split_last "+" s) as [[x y]|] eqn:E1.
    - apply split_last_some in E1 as [E1 E2]. exists (String "+" y). split; [exact E1|right; eauto].
    - exists "". rewrite app_nil_r_s. auto. }
  destruct G as (build & G & Hb).
  set (s1 := match split_last "+" s with Some (x, _) => x | None => s end) in *. clearbody s1. subst s.
  rewrite no_char_app in Hv. apply andb_true_iff in Hv as [Hv _].
  destruct (split_last "-" s1) as [[x y]|] eqn:E1.
  - apply split_last_some in E1 as [E1 _]. subst s1. rewrite no_char_app in Hv. apply andb_true_iff in Hv as [Hv _].
    destruct (parse_core x) as [c|] eqn:Ec; [|discriminate].
    destruct (parse_core_sound _ _ Hv Ec) as (parts & -> & HL & HF).
    exists parts, (String "-" y ++ build)%string. rewrite app_assoc_s. repeat split; auto; try lia.
    right. exists (y ++ build)%string. left. reflexivity.
  - destruct (parse_core s1) as [c|] eqn:Ec; [|discriminate].
    destruct (parse_core_sound _ _ Hv Ec) as (parts & -> & HL & HF).
    exists parts, build. repeat split; auto; try lia. destruct Hb as [->|[b ->]]; eauto.
Qed.

(** Well-formed SemVer versions that are refused or ordered wrongly *)
Lemma c15_hyphen_refuted : semver_less_equal "1.0.0-alpha-1" "1.0.0" = Err.
Proof. reflexivity. Qed.

Lemma c15_big_number_refuted :
  semver_less_equal "1.0.0-100000000000000000000" "1.0.0-99999999999999999999" = Ok true /\
  (99999999999999999999 < 100000000000000000000)%N /\
  semver_less_equal "1.0.0-99999999999999999999" "1.0.0-100000000000000000000" = Ok false.
Proof. repeat split; reflexivity. Qed.

(** min-rauc-version: accepted iff newer than 1.13 and not newer than this rauc *)
Lemma c15_min_rauc_ok : forall rauc v,
  check_min_rauc_version rauc (Some v) = true <->
  semver_less_equal v rauc = Ok true /\ semver_less_equal v "1.13" = Ok false.
Proof.
  intros rauc v. unfold check_min_rauc_version, semver_le_bool. rewrite !andb_true_iff, negb_true_iff.
  destruct c15_preorder_ok as (R & T & To & Er & _). split.
  - intros [[H0 H1] H2]. destruct (semver_less_equal v rauc) as [[]| |]; try discriminate.
    split; [reflexivity|]. destruct (semver_less_equal v "1.13") as [[]| |] eqn:E; try discriminate; [reflexivity| |].
    + apply Er in E. destruct E as [E|E]; [|discriminate E].
      assert (semver_less_equal "0" v = Err) as X by (apply Er; auto). rewrite X in H0. discriminate.
    + destruct (semver_less_equal "0" v) as [[]| |] eqn:E0; try discriminate.
      unfold semver_less_equal in E. destruct (semver_parse v); [|discriminate]. discriminate.
  - intros [-> H2]. rewrite H2. split; [split; [|reflexivity]|reflexivity].
    apply To in H2. rewrite (T "0" "1.13" v eq_refl H2). reflexivity.
Qed.
