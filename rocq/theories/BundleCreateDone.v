(** Proofs for C62: the finished bundle. *)
From Verif Require Import Base BaseLemmas KeyFile KeyFileLemmas Image Manifest BundleCreate BundleCreateSpec BundleCreateLink BundleCreateFrame
  BundleCreateProofs BundleCreateRun BundleCreateOut.

Lemma composefs_name : forall e d f fake s c s', composefs e d f fake s = (Some c, s') -> c = (f ++ ".cfs")%string.
Proof.
  intros e d f fake s c s' H. unfold composefs in H. repeat (apply mbind_some in H as (? & ? & _ & H)).
  injection H as <- _. reflexivity.
Qed.
Lemma methods_names : forall e d f fake l s ck s', convert_methods e d f fake l s = (Some ck, s') ->
  fst ck = output_names f l.
Proof.
  intros e d f fake. induction l as [| m r IH]; intros s ck s' H; cbn [convert_methods] in H.
  - injection H as <- _. reflexivity.
  - apply mbind_some in H as (c & s1 & C & H). apply mbind_some in H as (cr & s2 & R & H). injection H as <- _.
    cbn [fst output_names map]. apply IH in R. unfold output_names in R. rewrite R. f_equal.
    destruct (String.eqb m "tar-extract"); [injection C as <- _; reflexivity |].
    destruct (String.eqb m "composefs"); [apply composefs_name in C; assumption |].
    destruct (String.eqb m "keep"); [injection C as <- _; reflexivity | discriminate].
Qed.
Lemma convert_names : forall e kf d fake i s i' s', convert_image e kf d fake i s = (Some i', s') ->
  i' = if has_key kf i "convert"
       then match im_filename i with Some f => with_converted i (output_names f (im_convert i)) | None => i end else i.
Proof.
  intros e kf d fake i s i' s' H. unfold convert_image in H.
  destruct (has_key kf i "converted" && Nat.eqb (List.length (im_converted i)) 0); [discriminate |].
  destruct (has_key kf i "convert"); cbn [negb] in H; [| injection H as <- _; reflexivity].
  destruct (im_filename i) as [f |]; [| discriminate].
  apply mbind_some in H as (u & s1 & _ & H). apply mbind_some in H as (ck & s2 & C & H). apply methods_names in C.
  apply mbind_some in H as (u2 & s3 & _ & H). apply mbind_some in H as (u3 & s4 & _ & H). injection H as <- _. rewrite C. reflexivity.
Qed.

Definition conv_of (kf : keyfile) (i : image) : image :=
  if has_key kf i "convert"
  then match im_filename i with Some f => with_converted i (output_names f (im_convert i)) | None => i end else i.

Lemma pack_inv : forall e kf m meta fake s m' s', pack_phase e [WD] kf m meta fake s = (Some m', s') ->
  forall wd0, wdir s = Some wd0 -> s_out s = None ->
  exists d j,
    s_out s' = Some (OSquash d (s_cont s') meta) /\ wdir s' = Some d /\ sim (out_of (touched kf m)) wd0 d
    /\ assoc MF d = Some (Reg j) /\ s_cont s' j = CText (prepare_manifest m')
    /\ (forall i, i < s_next s -> s_cont s' i = s_cont s i)
    /\ m' = with_images m (map (conv_of kf) (mf_images m)).
Proof.
  intros e kf m meta fake s m' s' H wd0 W O. unfold pack_phase in H.
  apply mbind_some in H as ([] & s1 & G & H). pose proof (fr_gen e kf m s) as F1. rewrite G in F1. cbn [snd] in F1. destruct F1 as [E1 O1].
  apply mbind_some in H as (l & s2 & C & H). pose proof (fr_images e kf m fake s1) as F2. rewrite C in F2. cbn [snd] in F2. destruct F2 as [E2 O2].
  apply (each_forall2 (fun _ => True) (fun i i' => i' = conv_of kf i)) in C as [C _]; [| intros i x i' x' _ _ Hx; split; [eapply convert_names; eassumption | exact Logic.I] | exact Logic.I].
  assert (EL : l = map (conv_of kf) (mf_images m)) by (clear - C; induction C; cbn; congruence).
  cbv zeta in H. apply mbind_some in H as ([] & s3 & SV & H). pose proof (fr_save e kf m (CText (prepare_manifest (with_images m l))) s2) as F3.
  cbn [app] in SV. rewrite SV in F3. cbn [snd] in F3. destruct F3 as [E3 O3].
  assert (E := ext_trans _ _ _ _ (ext_trans _ _ _ _ E1 E2) E3).
  destruct (x_wd _ _ _ E _ W) as (d & Wd & Sd).
  apply mbind_some in H as ([] & s4 & Q & H). injection H as <- <-.
  assert (SJ : exists j, assoc MF d = Some (Reg j) /\ s_cont s3 j = CText (prepare_manifest (with_images m l))).
  { clear - SV Wd. apply mbind_some in SV as (x & x' & Gt & SV). injection Gt as <- <-.
    assert (Z : forall s2, (ask_ok e (KWrite [WD; MF]) ;; modify (fun s => mkSt (tput (s_root s) [WD; MF] (Some (Reg (s_next s))))
                               (fun i => if Nat.eqb i (s_next s) then CText (prepare_manifest (with_images m l)) else s_cont s i)
                               (S (s_next s)) (s_out s) (s_fake s) (s_log s))) s2 = (Some tt, s3) ->
                exists j, assoc MF d = Some (Reg j) /\ s_cont s3 j = CText (prepare_manifest (with_images m l))).
    { intros t2 Hz. apply mbind_some in Hz as ([] & x & A & Hz). injection Hz as <-. unfold wdir in Wd.
      cbn [s_root tget tput] in Wd. destruct (assoc WD (s_root x)) as [[a | w | b |] |] eqn:AW;
        try (rewrite AW in Wd; discriminate).
      rewrite assoc_set_eq in Wd. injection Wd as <-. exists (s_next x). rewrite assoc_set_eq. cbn. rewrite Nat.eqb_refl. auto. }
    destruct (tget (s_root s2) [WD; MF]) as [[| | |] |]; try discriminate; eapply Z; eassumption. }
  destruct SJ as (j & J1 & J2).
  assert (QQ : s_out s4 = Some (OSquash d (s_cont s3) meta) /\ s_cont s4 = s_cont s3 /\ s_root s4 = s_root s3).
  { clear - Q Wd. apply mbind_some in Q as (x & x' & Gt & Q). injection Gt as <- <-. destruct (s_out s3); [discriminate |].
    apply mbind_some in Q as (a & x & A & Q). injection A as <- <-. destruct (a_ok _); [| discriminate].
    unfold wdir in Wd. destruct (tget (s_root s3) [WD]) as [[| es | |] |]; try discriminate. injection Wd as ->.
    injection Q as <-. repeat split. }
  destruct QQ as (Q1 & Q2 & Q3). exists d, j. rewrite Q1, Q2. split; [reflexivity |].
  split; [unfold wdir in *; rewrite Q3; assumption |]. split; [assumption |]. split; [assumption |]. split; [assumption |].
  split; [apply (x_cont _ _ _ E) | rewrite EL; reflexivity].
Qed.

(** ** signing *)
Lemma rewrite_inv : forall e k f s a s', rewrite_out e k f s = (Some a, s') ->
  s_out s' = option_map (f a) (s_out s) /\ s_root s' = s_root s /\ s_cont s' = s_cont s.
Proof.
  intros e k f s a s' H. apply mbind_some in H as (x & y & A & H). injection A as <- <-.
  apply mbind_some in H as (x & y & G & H). injection G as <- <-. destruct (a_ok _); [| discriminate].
  apply mbind_some in H as (u & y & G & H). injection G as _ <-. injection H as <- <-. repeat split.
Qed.
Lemma lift_val : forall A (m : M A) s x s', lift m s = (FVal x, s') -> m s = (Some x, s').
Proof. intros A m s x s' H. unfold lift in H. destruct (m s) as [[y |] t]; [injection H as -> ->; reflexivity | discriminate]. Qed.

Lemma bundled_id : forall l l', (forall i, In i l -> im_filename i = None \/ (0 <= im_size i)%Z) -> check_bundled l = Ok l' -> l' = l.
Proof.
  induction l as [| i r IH]; intros l' H E; cbn [check_bundled] in E; [apply Ok_inj in E; congruence |].
  unfold bind in E. destruct (check_bundled_image i) as [i' | |] eqn:CI; try discriminate.
  destruct (check_bundled r) as [r' | |] eqn:CR; try discriminate. apply Ok_inj in E. subst l'.
  rewrite (IH r' ltac:(intros; apply H; right; assumption) eq_refl). f_equal.
  unfold check_bundled_image in CI. destruct (im_filename i) as [f |] eqn:F; [| apply Ok_inj in CI; congruence].
  destruct (H i (or_introl eq_refl)) as [X | X]; [congruence |].
  destruct (has_char "/" f); [discriminate |]. destruct (im_digest i); [| discriminate]. destruct (negb _); [discriminate |].
  destruct (im_size i <? 0)%Z eqn:Z0; [apply Z.ltb_lt in Z0; lia |]. cbn [bind] in CI.
  destruct (im_convert i); [apply Ok_inj in CI; congruence |]. destruct (_ && _); [apply Ok_inj in CI; congruence | discriminate].
Qed.
Lemma with_images_id : forall m, with_images m (mf_images m) = m.
Proof. intros []. reflexivity. Qed.
Lemma check_ok_id : forall rauc m m', (forall i, In i (mf_images m) -> im_filename i = None \/ (0 <= im_size i)%Z) ->
  (if bformat_eqb (mf_format m) F_PLAIN then check_internal rauc m else check_external rauc m) = Ok m' -> m' = m.
Proof.
  intros rauc m m' H E. assert (X : exists l, check_bundled (mf_images m) = Ok l /\ m' = with_images m l).
  { destruct (bformat_eqb (mf_format m) F_PLAIN) eqn:P; [unfold check_internal in E | unfold check_external in E];
      rewrite P in E; cbn [negb] in E; unfold bind in E;
      repeat match type of E with
             | (if ?c then Err else _) = Ok _ => destruct c; [discriminate |]
             | match check_bundled ?q with _ => _ end = Ok _ => destruct (check_bundled q) as [l | |]; try discriminate
             end.
    - destruct (mf_verity_size m =? 0)%N; [| discriminate]. apply Ok_inj in E. eauto.
    - apply Ok_inj in E. eauto. }
  destruct X as (l & CB & ->). apply bundled_id in CB; [| assumption]. subst l. apply with_images_id.
Qed.

Lemma sign_phase_inv : forall e m s u s' d c meta,
  sign_phase e m s = (FVal u, s') -> s_out s = Some (OSquash d c meta) ->
  (forall i, In i (mf_images m) -> im_filename i = None \/ (0 <= im_size i)%Z) ->
  s_root s' = s_root s /\ s_cont s' = s_cont s /\
  exists o ms, s_out s' = Some o /\ layers (mf_format m) d c meta ms o /\ same_header m ms /\ mf_images ms = mf_images m
    /\ (if bformat_eqb (mf_format m) F_PLAIN then check_internal (e_rauc e) ms else check_external (e_rauc e) ms) = Ok ms.
Proof.
  intros e m s u s' d c meta H O HI. unfold sign_phase in H.
  assert (SG : forall m1 t t', (forall i, In i (mf_images m1) -> im_filename i = None \/ (0 <= im_size i)%Z) ->
    lift (sign e m1) t = (FVal u, t') ->
    s_out t' = option_map (fun o => OSigned o m1) (s_out t) /\ s_root t' = s_root t /\ s_cont t' = s_cont t
    /\ (if bformat_eqb (mf_format m1) F_PLAIN then check_internal (e_rauc e) m1 else check_external (e_rauc e) m1) = Ok m1).
  { intros m1 t t' HI1 L. apply lift_val in L. unfold sign in L.
    destruct (if bformat_eqb (mf_format m1) F_PLAIN then _ else _) as [m2 | |] eqn:CK; try discriminate.
    assert (X := check_ok_id _ _ _ HI1 CK). subst m2. apply mbind_some in L as (a & t1 & R & L). injection L as _ <-.
    apply rewrite_inv in R as (R1 & R2 & R3). auto. }
  assert (VT : forall m1 t m2 t', create_verity e m1 t = (FVal m2, t') ->
    exists h sl n, m2 = with_verity m1 h sl n /\ s_out t' = option_map (fun o => OVerity o h sl n) (s_out t)
      /\ s_root t' = s_root t /\ s_cont t' = s_cont t).
  { intros m1 t m2 t' V. unfold create_verity in V. destruct (lift (ask_ok e KVerityOpen) t) as [[x | |] t1] eqn:L; try discriminate.
    apply lift_val in L. assert (Q := q_ask_ok e KVerityOpen t). rewrite L in Q. cbn in Q. destruct Q as (Q1 & Q2 & _ & Q4 & _).
    destruct (mf_verity_salt m1), (mf_verity_hash m1); try discriminate. destruct (mf_verity_size m1 =? 0)%N; [| discriminate].
    apply lift_val in V. apply mbind_some in V as (a & t2 & R & V). injection V as <- <-. apply rewrite_inv in R as (R1 & R2 & R3).
    exists (a_s1 a), (a_s2 a), (a_n a). rewrite R1, R2, R3, Q1, Q2, Q4. repeat split. }
  destruct (mf_format m) eqn:FM; cbn [bformat_eqb] in H.
  - unfold sign_bundle in H. rewrite FM in H. cbn [bformat_eqb] in H. apply SG in H as (S1 & S2 & S3 & S4); [| assumption].
    split; [assumption |]. split; [assumption |]. rewrite O in S1. cbn in S1. rewrite FM in S4. eexists; exists m. split; [exact S1 |].
    split; [reflexivity |]. split; [unfold same_header; repeat split; assumption |]. split; [reflexivity | exact S4].
  - unfold sign_bundle in H. rewrite FM in H. cbn [bformat_eqb] in H.
    destruct (create_verity e m s) as [[m2 | |] s2] eqn:CV; try discriminate. apply VT in CV as (h & sl & n & -> & V1 & V2 & V3).
    apply SG in H as (S1 & S2 & S3 & S4); [| exact HI]. split; [congruence |]. split; [congruence |].
    rewrite V1, O in S1. cbn in S1. cbn [with_verity mf_format] in S4. rewrite FM in S4. eexists; eexists. split; [exact S1 |].
    split; [exists h, sl, n; repeat split; reflexivity |]. split; [unfold same_header; repeat split; assumption |]. split; [reflexivity | exact S4].
  - destruct (encrypt_payload e m s) as [[m1 | |] s1] eqn:EN; try discriminate.
    unfold encrypt_payload in EN. destruct (mf_crypt_key m); [discriminate |]. apply lift_val in EN.
    apply mbind_some in EN as (a & t2 & R & EN). injection EN as <- <-. apply rewrite_inv in R as (R1 & R2 & R3).
    unfold sign_bundle in H. cbn [with_key mf_format] in H. rewrite FM in H. cbn [bformat_eqb] in H.
    destruct (create_verity e (with_key m (a_s1 a)) t2) as [[m2 | |] s2] eqn:CV; try discriminate. apply VT in CV as (h & sl & n & -> & V1 & V2 & V3).
    apply SG in H as (S1 & S2 & S3 & S4); [| exact HI]. split; [congruence |]. split; [congruence |].
    rewrite V1, R1, O in S1. cbn in S1. cbn [with_verity with_key mf_format] in S4. rewrite FM in S4. eexists; eexists. split; [exact S1 |].
    split; [exists h, sl, n, (a_s1 a); repeat split; reflexivity |]. split; [unfold same_header; repeat split; assumption |]. split; [reflexivity | exact S4].
Qed.
