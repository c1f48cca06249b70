(** Proofs for C62: converted images, outcomes of special inputs. *)
From Verif Require Import Base BaseLemmas KeyFile KeyFileLemmas Image Manifest ManifestSpec ManifestProofs ManifestCheckProofs BundleCreate BundleCreateSpec BundleCreateLink BundleCreateFrame
  BundleCreateProofs BundleCreateRun BundleCreateOut BundleCreateDone BundleCreateEnd.

(** name [n] of the working directory is a directory *)
Definition isdir (n : string) (s : st) : Prop := exists d x, wdir s = Some d /\ assoc n d = Some (Dir x).
Lemma isdir_tget : forall n s, isdir n s <-> exists x, tget (s_root s) [WD; n] = Some (Dir x).
Proof.
  intros n s. unfold isdir, wdir. cbn [tget]. split.
  - intros (d & x & W & A). destruct (assoc WD (s_root s)) as [[| es | |] |]; try discriminate. injection W as ->. rewrite A. eauto.
  - intros (x & H). destruct (assoc WD (s_root s)) as [[| es | |] |]; try discriminate. exists es.
    destruct (assoc n es) as [[| es' | |] |]; try discriminate. eauto.
Qed.
(** the step keeps directories, other than those in [ex] *)
Definition kd {A} (ex : string -> Prop) (m : M A) : Prop := forall s n, ~ ex n -> isdir n s -> isdir n (snd (m s)).
Definition none : string -> Prop := fun _ => False.

Lemma isdir_root : forall n s s', s_root s' = s_root s -> isdir n s -> isdir n s'.
Proof. intros n s s' E H. unfold isdir, wdir in *. rewrite E. assumption. Qed.
Lemma kd_quiet : forall A ex (m : M A), quiet m -> kd ex m.
Proof. intros A ex m Q s n _ H. eapply isdir_root; [apply Q | assumption]. Qed.
Lemma kd_bind : forall A B ex (m : M A) (f : A -> M B), kd ex m -> (forall x, kd ex (f x)) -> kd ex (mbind m f).
Proof.
  intros A B ex m f Hm Hf s n N H. unfold mbind. specialize (Hm s n N H). destruct (m s) as [[x |] s1]; cbn [snd] in *; [| assumption].
  apply Hf; assumption.
Qed.
Lemma isdir_put : forall n s c x, isdir n s -> n <> c \/ (exists y, x = Some (Dir y)) -> isdir n (put [WD; c] x s).
Proof.
  intros n s c x (d & y & W & A) H. unfold isdir, wdir, put, set_root in *. cbn [s_root tput tget] in *.
  destruct (assoc WD (s_root s)) as [[| es | |] |] eqn:AW; try discriminate. injection W as ->. rewrite assoc_set_eq.
  destruct (string_dec n c) as [-> | Nc].
  - destruct H as [H | [z ->]]; [congruence |]. eexists; exists z. split; [reflexivity | apply assoc_set_eq].
  - destruct x as [nx |].
    + eexists; exists y. split; [reflexivity |]. rewrite assoc_set_neq by congruence. assumption.
    + eexists; exists y. split; [reflexivity |]. rewrite assoc_remove_neq by congruence. assumption.
Qed.
Lemma kd_putdir : forall ex c y, kd ex (modify (put [WD; c] (Some (Dir y)))).
Proof. intros ex c y s n _ H. cbn [modify snd]. apply isdir_put; eauto. Qed.
Lemma kd_set : forall e ex c x, kd ex (set_contents e [WD; c] x).
Proof.
  intros e ex c x s n _ H. unfold set_contents. cbn [mbind get].
  destruct (tget (s_root s) [WD; c]) as [[i | es | t |] |] eqn:T; try (exact H);
    (unfold mbind; assert (Q := q_ask_ok e (KWrite [WD; c]) s); destruct (ask_ok e (KWrite [WD; c]) s) as [[u |] s1]; cbn [snd modify] in *;
     destruct Q as (Q1 & _); [| eapply isdir_root; eassumption]);
    (assert (Nc : n <> c) by (intros ->; apply isdir_tget in H as (z & Hz); congruence));
    (apply (isdir_root n (put [WD; c] (Some (Reg (s_next s1))) s1)); [reflexivity |]; apply isdir_put; [eapply isdir_root; eassumption | left; assumption]).
Qed.
Lemma kd_mkdir : forall e ex c, kd ex (mkdir e [WD; c]).
Proof.
  intros e ex c. apply kd_bind; [apply kd_quiet, q_get | intro s]. destruct (tget (s_root s) [WD; c]); [apply kd_quiet, q_fail |].
  apply kd_bind; [apply kd_quiet, q_ask_ok | intro]. apply kd_putdir.
Qed.
Lemma kd_rm : forall e c, kd (eq c) (rm_tree e [WD; c]).
Proof.
  intros e c. apply kd_bind; [apply kd_quiet, q_ask | intro a].
  assert (P : forall x, kd (eq c) (modify (put [WD; c] x))) by (intros x s n N H; apply isdir_put; [assumption | left; congruence]).
  destruct (a_ok a); [apply P |]. apply kd_bind; [apply P | intro; apply kd_quiet, q_fail].
Qed.
Lemma mkdir_new : forall e c s u s', mkdir e [WD; c] s = (Some u, s') -> ~ isdir c s.
Proof.
  intros e c s u s' H D. apply isdir_tget in D as (x & Hx). unfold mkdir in H. cbn [mbind get] in H. rewrite Hx in H. discriminate.
Qed.
Lemma put_isdir : forall c y s d, wdir s = Some d -> isdir c (put [WD; c] (Some (Dir y)) s).
Proof.
  intros c y s d W. unfold isdir, wdir, put, set_root in *. cbn [s_root tput tget] in *.
  destruct (assoc WD (s_root s)) as [[| es | |] |] eqn:AW; try discriminate. rewrite assoc_set_eq.
  eexists; exists y. split; [reflexivity | apply assoc_set_eq].
Qed.
(** the working directory stays a directory *)
Definition hasw (s : st) : Prop := exists d, wdir s = Some d.
Lemma isdir_hasw : forall n s, isdir n s -> hasw s.
Proof. intros n s (d & _ & W & _). exists d. assumption. Qed.
Lemma fr_hasw : forall A k (m : M A) s, fr k m -> hasw s -> hasw (snd (m s)).
Proof. intros A k m s F [d W]. destruct (F s) as [X _]. destruct (x_wd _ _ _ X _ W) as (d' & W' & _). exists d'. assumption. Qed.

Lemma dirof_eq : forall o, exists y, (match o with Some (Dir x) => Dir x | _ => Dir [] end) = Dir y.
Proof. intros [[| x | |] |]; eauto. Qed.

Lemma kd_tar : forall e ex f fake, kd ex (tar_extract e [WD] f fake).
Proof.
  intros e ex f fake. unfold tar_extract. cbv zeta. cbn [app]. apply kd_bind; [apply kd_mkdir | intro]. apply kd_bind; [apply kd_quiet, q_ask | intro a].
  destruct (dirof_eq (a_left a)) as [y ->]. apply kd_bind; [apply kd_putdir | intro]. apply kd_bind; [apply kd_quiet, q_guard | intro; apply kd_quiet, q_ret].
Qed.
Lemma hasw_mkdir : forall e c s u s', mkdir e [WD; c] s = (Some u, s') -> hasw s -> hasw s'.
Proof.
  intros e c s u s' H D. apply mbind_some in H as (x & y & G & H). injection G as <- <-.
  destruct (tget (s_root s) [WD; c]); [discriminate |]. apply mbind_some in H as (v & y & A & H). injection H as _ <-.
  assert (Q := q_ask_ok e (KMkdir [WD; c]) s). rewrite A in Q. cbn in Q. destruct Q as (Q & _). destruct D as [d W].
  destruct (put_isdir c [] y d) as (d' & _ & W' & _); [unfold wdir in *; rewrite Q; assumption |]. exists d'. exact W'.
Qed.
Lemma tar_isdir : forall e f fake s c s', tar_extract e [WD] f fake s = (Some c, s') -> hasw s ->
  isdir (f ++ ".extracted")%string s' /\ ~ isdir (f ++ ".extracted")%string s.
Proof.
  intros e f fake s c s' H D. unfold tar_extract in H. cbv zeta in H. cbn [app] in H.
  apply mbind_some in H as (u & s1 & MK & H). assert (N := mkdir_new _ _ _ _ _ MK). split; [| assumption].
  assert (D1 := hasw_mkdir _ _ _ _ _ MK D). apply mbind_some in H as (a & s2 & A & H). injection A as <- <-.
  destruct (dirof_eq (a_left (e_ans e (List.length (s_log s1))))) as [y Ey]. rewrite Ey in H.
  apply mbind_some in H as (v & s3 & P & H). injection P as _ <-. apply mbind_some in H as (w & s4 & G & H). apply guard_some in G as [_ ->]. injection H as _ <-.
  destruct D1 as [d W]. eapply put_isdir. exact W.
Qed.
Lemma kd_composefs : forall e ex f fake, kd ex (composefs e [WD] f fake).
Proof.
  intros e ex f fake. unfold composefs. cbv zeta. cbn [app]. apply kd_bind; [apply kd_quiet, q_guard | intro].
  apply kd_bind; [apply kd_mkdir | intro]. apply kd_bind; [apply kd_quiet, q_get | intro s].
  apply kd_bind; [destruct (tget (s_root s) [WD; ".rauc-cfs-store"]) as [[| | |] |]; first [apply kd_mkdir | apply kd_quiet, q_ret] | intro].
  apply kd_bind; [apply kd_quiet, q_ask | intro a]. destruct (dirof_eq (a_left a)) as [y ->]. apply kd_bind; [apply kd_putdir | intro].
  apply kd_bind; [apply kd_quiet, q_ask | intro b]. destruct (dirof_eq (a_left b)) as [z ->]. apply kd_bind; [apply kd_putdir | intro].
  apply kd_bind; [apply kd_quiet, q_guard | intro; apply kd_quiet, q_ret].
Qed.
Lemma composefs_isdir : forall e f fake s c s', composefs e [WD] f fake s = (Some c, s') -> hasw s -> isdir (f ++ ".cfs")%string s'.
Proof.
  intros e f fake s c s' H D. unfold composefs in H. cbv zeta in H. cbn [app] in H.
  apply mbind_some in H as (u & s0 & G & H). apply guard_some in G as [_ ->].
  apply mbind_some in H as (u1 & s1 & MK & H). assert (D1 := hasw_mkdir _ _ _ _ _ MK D).
  apply mbind_some in H as (s1' & s1'' & G & H). injection G as <- <-.
  apply mbind_some in H as (u2 & s2 & MK2 & H).
  assert (D2 : hasw s2).
  { destruct (tget (s_root s1) [WD; ".rauc-cfs-store"]) as [[| | |] |];
      first [exact (hasw_mkdir _ _ _ _ _ MK2 D1) | injection MK2 as _ <-; exact D1]. }
  apply mbind_some in H as (a & s3 & A & H). injection A as <- <-.
  destruct (dirof_eq (a_left (e_ans e (List.length (s_log s2))))) as [y Ey]. rewrite Ey in H.
  apply mbind_some in H as (v & s3 & P & H). injection P as _ <-.
  apply mbind_some in H as (b & s4 & B & H). injection B as Eb <-.
  destruct (dirof_eq (a_left b)) as [z Ez]. rewrite Ez in H.
  apply mbind_some in H as (v2 & s5 & P & H). injection P as _ <-.
  apply mbind_some in H as (w & s6 & G & H). apply guard_some in G as [_ ->]. injection H as _ <-.
  destruct D2 as [d W]. apply isdir_put; [| right; eauto].
  eapply isdir_root; [| eapply (put_isdir _ y _ d); exact W]. reflexivity.
Qed.
Lemma kd_methods : forall e ex f fake l, kd ex (convert_methods e [WD] f fake l).
Proof.
  intros e ex f fake l. induction l as [| m r IH]; [apply kd_quiet, q_ret |]. cbn [convert_methods]. apply kd_bind.
  - destruct (String.eqb m "tar-extract"); [apply kd_quiet, q_ret |]. destruct (String.eqb m "composefs"); [apply kd_composefs |].
    destruct (String.eqb m "keep"); [apply kd_quiet, q_ret | apply kd_quiet, q_fail].
  - intro c. apply kd_bind; [exact IH | intro; apply kd_quiet, q_ret].
Qed.
Lemma hasw_step : forall A k (m : M A) s y s', fr k m -> m s = (Some y, s') -> hasw s -> hasw s'.
Proof. intros A k m s y s' F H D. assert (X := fr_hasw _ _ _ s F D). rewrite H in X. exact X. Qed.
Lemma hasw_composefs : forall e f fake s c s', composefs e [WD] f fake s = (Some c, s') -> hasw s -> hasw s'.
Proof. intros e f fake s c s' H D. eapply isdir_hasw, composefs_isdir; eassumption. Qed.
Lemma methods_isdir : forall e f fake l s ck s', convert_methods e [WD] f fake l s = (Some ck, s') -> hasw s ->
  hasw s' /\ (In "composefs" l -> isdir (f ++ ".cfs")%string s').
Proof.
  intros e f fake l. induction l as [| m r IH]; intros s ck s' H D; cbn [convert_methods] in H.
  - injection H as _ <-. split; [assumption | intros []].
  - apply mbind_some in H as (c & s1 & C & H). apply mbind_some in H as (cr & s2 & R & H). injection H as _ <-.
    assert (D1 : hasw s1 /\ (m = "composefs" -> isdir (f ++ ".cfs")%string s1)).
    { destruct (String.eqb_spec m "tar-extract") as [-> | _]; [injection C as _ <-; split; [assumption | discriminate] |].
      destruct (String.eqb_spec m "composefs") as [-> | _]; [split; [eapply hasw_composefs; eassumption | intros _; eapply composefs_isdir; eassumption] |].
      destruct (String.eqb_spec m "keep") as [-> | _]; [injection C as _ <-; split; [assumption | discriminate] | discriminate]. }
    destruct D1 as [D1 X]. assert (K := kd_methods e none f fake r s1). rewrite R in K. cbn [snd] in K.
    apply IH in R as [D2 Y]; [| assumption]. split; [assumption |]. intros [-> | I]; [| auto]. apply K; [tauto |]. auto.
Qed.
Lemma app_inj_l : forall a b c : string, (a ++ b)%string = (a ++ c)%string -> b = c.
Proof. induction a as [| x a IH]; intros b c H; [exact H |]. cbn in H. injection H as H. auto. Qed.

(** what converting one image does to directories *)
Lemma convert_dirs : forall e kf fake i s i' s', convert_image e kf [WD] fake i s = (Some i', s') -> hasw s ->
  (forall n, isdir n s -> isdir n s') /\ hasw s' /\
  (forall f, im_filename i = Some f -> has_key kf i "convert" = true ->
     (In "tar-extract" (im_convert i) -> isdir (f ++ ".extracted")%string s')
     /\ (In "composefs" (im_convert i) -> isdir (f ++ ".cfs")%string s')).
Proof.
  intros e kf fake i s i' s' H D. unfold convert_image in H.
  destruct (has_key kf i "converted" && Nat.eqb (List.length (im_converted i)) 0); [discriminate |].
  destruct (has_key kf i "convert") eqn:HK; cbn [negb] in H; [| injection H as _ <-; split; [auto | split; [assumption | intros; discriminate]]].
  destruct (im_filename i) as [f |] eqn:F; [| discriminate]. cbv zeta in H.
  set (tar := wants i "tar-extract" || wants i "composefs") in *.
  apply mbind_some in H as ([] & s1 & T & H).
  assert (T1 : hasw s1 /\ (forall n, isdir n s -> isdir n s1) /\
               (tar = true -> isdir (f ++ ".extracted")%string s1 /\ ~ isdir (f ++ ".extracted")%string s)).
  { destruct tar.
    - apply mbind_some in T as (c & s1' & T & G). injection G as ->.
      assert (K := kd_tar e none f fake s). rewrite T in K. cbn [snd] in K. apply tar_isdir in T as [X Y]; [| assumption].
      split; [eapply isdir_hasw; exact X |]. split; [intros n; apply K; intros [] |]. auto.
    - injection T as <-. split; [assumption |]. split; [auto |]. discriminate. }
  destruct T1 as (D1 & K1 & X1). clear T.
  apply mbind_some in H as (ck & s2 & C & H). assert (K2 := kd_methods e none f fake (im_convert i) s1). rewrite C in K2. cbn [snd] in K2.
  apply methods_isdir in C as [D2 X2]; [| assumption].
  apply mbind_some in H as ([] & s3 & RM & H).
  assert (K3 : forall n, isdir n s2 -> (tar && negb (wants i "tar-extract") = true -> n <> (f ++ ".extracted")%string) -> isdir n s3).
  { intros n Hn N. destruct (tar && negb (wants i "tar-extract")).
    - assert (K := kd_rm e (f ++ ".extracted")%string s2 n). cbn [app] in RM. rewrite RM in K. cbn [snd] in K. apply K; [| assumption].
      intro E. exact (N eq_refl (eq_sym E)).
    - injection RM as <-. assumption. }
  assert (D3 : hasw s3).
  { destruct (tar && negb (wants i "tar-extract")).
    - cbn [app] in RM. refine (hasw_step _ (fun _ => false) (rm_tree e [WD; (f ++ ".extracted")%string]) s2 tt s3 _ RM D2).
      apply fr_rm. reflexivity.
    - injection RM as <-. assumption. }
  apply mbind_some in H as ([] & s4 & U & H). injection H as _ <-.
  assert (K4 : (forall n, isdir n s3 -> isdir n s4) /\ hasw s4).
  { destruct (snd ck); [injection U as <-; auto |]. apply mbind_some in U as (x & x' & G & U). injection G as <- <-. cbn [app] in U.
    assert (NI : ~ isdir f s3).
    { intro Hf. apply isdir_tget in Hf as (z & Hz). rewrite Hz in U. discriminate. }
    assert (Z : forall s3', s_root s3' = s_root s3 -> (forall n, isdir n s3 -> isdir n (put [WD; f] None s3')) /\ hasw (put [WD; f] None s3')).
    { intros s3' E. split.
      - intros n Hn. apply isdir_put; [eapply isdir_root; eassumption | left; intros ->; auto].
      - destruct D3 as [d W]. unfold hasw, wdir, put, set_root in *. cbn [s_root tput tget] in *. rewrite E.
        destruct (assoc WD (s_root s3)) as [[| es | |] |] eqn:AW; try discriminate. rewrite assoc_set_eq. eauto. }
    destruct (tget (s_root s3) [WD; f]) as [[| | |] |]; try discriminate;
      (apply mbind_some in U as ([] & y & A & U); assert (Q := q_ask_ok e (KUnlink [WD; f]) s3); rewrite A in Q; cbn in Q; destruct Q as (Q & _);
       injection U as <-; apply Z; exact Q). }
  destruct K4 as [K4 D4]. split; [| split; [assumption |]].
  - intros n Hn. apply K4, K3; [apply K2; [intros [] | auto] |]. intros TR ->. apply andb_prop in TR as [TR _]. destruct (X1 TR) as [_ Y]. contradiction.
  - intros f0 E _. injection E as <-.
    assert (WI : forall x, In x (im_convert i) -> wants i x = true).
    { intros x I. unfold wants. apply existsb_exists. exists x. split; [assumption | apply String.eqb_refl]. }
    split; intro I.
    + apply K4, K3; [apply K2; [intros [] |]; apply X1; unfold tar; rewrite (WI _ I); reflexivity |].
      rewrite (WI _ I). intro B. destruct tar; discriminate.
    + apply K4, K3; [auto |]. intros _ E. apply app_inj_l in E. discriminate.
Qed.

Lemma each_dirs : forall e kf fake l s l' s', each_image (convert_image e kf [WD] fake) l s = (Some l', s') -> hasw s ->
  (forall n, isdir n s -> isdir n s') /\
  forall i f, In i l -> im_filename i = Some f -> has_key kf i "convert" = true ->
     (In "tar-extract" (im_convert i) -> isdir (f ++ ".extracted")%string s')
     /\ (In "composefs" (im_convert i) -> isdir (f ++ ".cfs")%string s').
Proof.
  intros e kf fake l. induction l as [| i r IH]; intros s l' s' H D; cbn [each_image] in H.
  - injection H as _ <-. split; [auto | intros i f []].
  - apply mbind_some in H as (i' & s1 & C & H). apply mbind_some in H as (r' & s2 & R & H). injection H as _ <-.
    apply convert_dirs in C as (K1 & D1 & X1); [| assumption]. apply IH in R as (K2 & X2); [| assumption].
    split; [auto |]. intros i0 f [-> | I] F HK; [| eauto]. destruct (X1 f F HK). split; auto.
Qed.

Lemma parse_convert_key : forall kf m i, parse_manifest kf = Ok m -> In i (mf_images m) -> im_convert i <> [] ->
  match kf_get kf (image_group i) "convert" with Some _ => true | None => false end = true.
Proof.
  intros kf m i P I NE. apply c33_strict_ok in P as (_ & _ & _ & _ & _ & _ & _ & _ & _ & P).
  revert I P. generalize (mf_images m). intros l I P. remember (filter (has_prefix "image.") (kf_groups kf)) as gs eqn:EG.
  assert (HG : forall g, In g gs -> has_prefix "image." g = true) by (intros g Hg; subst gs; apply filter_In in Hg; tauto).
  clear EG. induction P as [| g i' gs' l' H P IH]; [destruct I |]. destruct I as [-> | I]; [| apply IH; auto; intros; apply HG; right; assumption].
  assert (HP := HG g (or_introl eq_refl)). unfold image_of_group in H. destruct H as (N & _ & _ & _ & _ & _ & H).
  destruct (c34_total_ok _ _ _ _ HP N) as [_ EG].
  assert (G : image_group i = g) by (symmetry; exact EG). rewrite G.
  assert (C : im_convert i = kf_list kf g "convert") by tauto. rewrite C in NE. unfold kf_list in NE.
  destruct (kf_get kf g "convert"); [reflexivity | congruence].
Qed.

Lemma c62_converted_ok : forall e s s' o d c meta, s_out s = None -> create_bundle e s = (Ret true false, s') ->
  s_out s' = Some o -> payload o = Some (d, c, meta) ->
  exists kf m0, parse_manifest kf = Ok m0
    /\ (forall n, assoc "manifest.raucm" (s_root s) = Some (Reg n) -> e_parse e (s_cont s n) = Some kf)
    /\ forall i f, In i (mf_images m0) -> im_filename i = Some f ->
         (In "tar-extract" (im_convert i) -> exists x, assoc (f ++ ".extracted")%string d = Some (Dir x))
         /\ (In "composefs" (im_convert i) -> exists x, assoc (f ++ ".cfs")%string d = Some (Dir x)).
Proof.
  intros e s s' o0 d0 c0 meta0 O H OE PE.
  destruct (success_inv _ _ _ O H) as (t1 & t2 & t3 & kf & m & root1 & wd0 & m0 & l & nf & meta & u & t4 & t5 & m' & d & j & o & ms &
    LP & NF & FS & PP & RM & -> & C2 & N2 & S1 & L1 & W1 & W2 & PM & CI & CC & (n & OM & EP) & -> & FL & W3 & SD & J1 & J2 & CT & -> & Z1 & Z2 & Z3 & Z4 & Z5 & RT).
  rewrite Z1 in OE. injection OE as <-.
  assert (PO : payload o = Some (d, s_cont t3, meta)).
  { clear - Z2. unfold layers in Z2. destruct (mf_format m0).
    - subst o. reflexivity.
    - destruct Z2 as (? & ? & ? & _ & _ & _ & ->). reflexivity.
    - destruct Z2 as (? & ? & ? & ? & _ & _ & _ & _ & ->). reflexivity. }
  rewrite PO in PE. injection PE as <- <- <-. exists kf, m0. split; [assumption |].
  split. { intros k A. assert (X := open_top _ _ _ root1 _ _ k L1 W1 OM). rewrite <- X; [assumption |].
           rewrite <- (sim_assoc _ _ _ _ S1); [assumption | reflexivity]. }
  unfold pack_phase in PP. apply mbind_some in PP as ([] & q1 & G & PP).
  assert (D1 : hasw q1) by (eapply (hasw_step _ _ _ _ _ _ (fr_gen e kf (with_images m0 l)) G); exists wd0; exact W2).
  apply mbind_some in PP as (l2 & q2 & C & PP). apply each_dirs in C as [_ X]; [| assumption]. cbv zeta in PP.
  apply mbind_some in PP as ([] & q3 & SV & PP). apply mbind_some in PP as ([] & q4 & SQ & PP). injection PP as PPm <-.
  assert (K : forall n, isdir n q2 -> exists x, assoc n d = Some (Dir x)).
  { intros x Hx. assert (K := kd_set e none MF (CText (prepare_manifest (with_images (with_images m0 l) l2))) q2 x ltac:(intros []) Hx).
    cbn [app] in SV. rewrite SV in K. cbn [snd] in K.
    assert (R4 : s_root q4 = s_root q3).
    { clear - SQ. apply mbind_some in SQ as (x & x' & Gt & Q). injection Gt as <- <-. destruct (s_out q3); [discriminate |].
      apply mbind_some in Q as (a & x & A & Q). injection A as <- <-. destruct (a_ok _); [| discriminate].
      destruct (tget (s_root q3) [WD]) as [[| es | |] |]; try discriminate. injection Q as <-. reflexivity. }
    apply (isdir_root _ q3 q4) in K; [| assumption]. destruct K as (d' & y & W' & A). rewrite W3 in W'. injection W' as <-. eauto. }
  assert (FX : forall i, In i (mf_images m0) -> exists i1, In i1 l /\ im_filename i1 = im_filename i /\ im_convert i1 = im_convert i /\ image_group i1 = image_group i).
  { clear - FL. induction FL as [| a b r r' Hab R IH]; [intros i [] |]. intros i [-> | I].
    - exists b. split; [left; reflexivity |]. unfold summed in Hab. destruct (im_filename i) eqn:F; [destruct Hab as (n & _ & ->) | subst b]; cbn; rewrite ?F; auto.
    - destruct (IH i I) as (i1 & I1 & ?). exists i1. split; [right; assumption | assumption]. }
  intros i f I F. destruct (FX i I) as (i1 & I1 & F1 & CV & G1).
  assert (HK : im_convert i <> [] -> has_key kf i1 "convert" = true).
  { intro NE. unfold has_key. rewrite G1. exact (parse_convert_key kf m0 i PM I NE). }
  split; intro IC; apply K; eapply (X i1 f I1); try congruence; rewrite ?CV; try assumption; apply HK; intro E; rewrite E in IC; destruct IC.
Qed.
