(** Proofs for C62: the main theorem about a finished bundle. *)
From Verif Require Import Base BaseLemmas KeyFile KeyFileLemmas Image Manifest BundleCreate BundleCreateSpec BundleCreateLink BundleCreateFrame
  BundleCreateProofs BundleCreateRun BundleCreateOut BundleCreateDone.

Lemma summed_touched : forall e c op kf i i', summed e c op i i' ->
  touched_by i' ++ dropped_by kf i' = touched_by i ++ dropped_by kf i.
Proof. intros e c op kf i i' H. unfold summed in H. destruct i. cbn in H. destruct im_filename; [destruct H as (n & _ & ->) | subst i']; reflexivity. Qed.
Lemma touched_sum : forall e c op kf m l, Forall2 (summed e c op) (mf_images m) l -> touched kf (with_images m l) = touched kf m.
Proof.
  intros e c op kf m l H. unfold touched. cbn [with_images mf_images]. f_equal.
  induction H as [| i i' r r' H R IH]; [reflexivity |]. cbn [flat_map]. rewrite IH, (summed_touched _ _ _ _ _ _ H). reflexivity.
Qed.

Lemma open_top : forall e wd0 s root f n k, linked e root wd0 -> wdir s = Some wd0 -> open_in e [WD] f s = Some n ->
  assoc f root = Some (Reg k) -> n = k.
Proof.
  intros e wd0 s root f n k L W O A. unfold open_in in O. unfold wdir in W.
  destruct (tget (s_root s) [WD]) as [[| es | |] |]; try discriminate. injection W as ->.
  destruct (follow (e_max e) (s_root s :: e_up e) wd0 f) as [| i | | |] eqn:F; try discriminate. injection O as ->.
  destruct (e_max e) eqn:EM; cbn [follow] in F;
    (destruct (String.eqb f "."); [discriminate |]; destruct (String.eqb f ".."); [discriminate |];
     destruct (String.eqb_spec f WD) as [-> | Nf]; [discriminate |]; unfold linked in L; rewrite link_eq in L;
     assert (X := each_assoc _ _ _ _ _ _ _ _ _ L f Nf); rewrite A in X; rewrite X in F; injection F as ->; reflexivity).
Qed.

Lemma input_image : forall e m i, check_input e m = true -> In i (mf_images m) ->
  im_digest i = None /\ im_size i = (-1)%Z /\ im_converted i = [] /\ match im_filename i with Some f => has_char "/" f = false | None => True end.
Proof.
  intros e m i H I. unfold check_input in H. apply andb_prop in H as [_ H]. rewrite forallb_forall in H. specialize (H _ I).
  apply andb_prop in H as [H H4]. apply andb_prop in H as [H H3]. apply andb_prop in H as [H1 H2].
  repeat split.
  - destruct (im_digest i); [discriminate | reflexivity].
  - apply Z.eqb_eq. assumption.
  - destruct (im_converted i); [reflexivity | discriminate].
  - destruct (im_filename i); [| exact Logic.I]. destruct (has_char "/" s); [discriminate | reflexivity].
Qed.

Lemma conv_summed_described : forall e s kf root wd0 s1 m0 i i1,
  linked e root wd0 -> sim notwd (s_root s) root -> wdir s1 = Some wd0 ->
  check_input e m0 = true -> In i (mf_images m0) ->
  summed e (s_cont s) (fun f => open_in e [WD] f s1) i i1 -> described e s kf i (conv_of kf i1).
Proof.
  intros e s kf root wd0 s1 m0 i i1 L SR W CI I H. destruct (input_image _ _ _ CI I) as (D & Z1 & CV & _).
  unfold summed in H. unfold described.
  assert (HK : has_key kf i1 "convert" = match kf_get kf (image_group i) "convert" with Some _ => true | None => false end).
  { unfold has_key. destruct (im_filename i); [destruct H as (n & _ & ->) | subst i1]; reflexivity. }
  unfold conv_of. rewrite HK. destruct (im_filename i) as [f |] eqn:F.
  - destruct H as (n & O & ->). cbn [with_sum im_filename]. rewrite F.
    assert (OK : forall k, assoc f (s_root s) = Some (Reg k) -> n = k).
    { intros k A. eapply open_top; try eassumption. rewrite <- (sim_assoc _ _ _ _ SR); [assumption |].
      apply notwd_true. intros ->. unfold open_in in O. destruct (tget (s_root s1) [WD]) as [[| es | |] |]; try discriminate.
      destruct (e_max e); discriminate. }
    destruct (kf_get kf (image_group i) "convert"); cbn; (repeat (split; [first [reflexivity | assumption] |]));
      (split; [split; [discriminate | split; [lia | intros k A; apply OK in A; subst n; auto]] | first [reflexivity | assumption]]).
  - subst i1. cbn [with_sum im_filename]. rewrite F.
    destruct (kf_get kf (image_group i) "convert"); cbn; repeat split; assumption.
Qed.

Lemma rm_wd : forall e s s', rm_tree e [WD] s = (Some tt, s') ->
  s_out s' = s_out s /\ s_cont s' = s_cont s /\ tget (s_root s') [WD] = None.
Proof.
  intros e s s' H. apply mbind_some in H as (a & s1 & A & H). injection A as <- <-. destruct (a_ok _); [| discriminate].
  injection H as <-. split; [reflexivity |]. split; [reflexivity |]. unfold put, set_root. cbn [s_root tget tput].
  rewrite assoc_remove_eq. reflexivity.
Qed.

(** everything known about the intermediate states of a successful run *)
Lemma success_inv : forall e s s', s_out s = None -> create_bundle e s = (Ret true false, s') ->
  exists t1 t2 t3 kf m root1 wd0 m0 l nf meta u t4 t5 m' d j o ms,
    load_phase e s = (Some ([WD], kf, m), t1) /\ needs_fakeroot e m = (nf, meta) /\ fake_step e nf t1 = (Some u, t2)
    /\ pack_phase e [WD] kf m meta nf t2 = (Some m', t3) /\ rm_tree e [WD] t4 = (Some tt, t5) /\ s' = cleanup e nf t5
    /\ s_cont t2 = s_cont s /\ s_next t2 = s_next s
    /\ sim notwd (s_root s) root1 /\ linked e root1 wd0 /\ wdir t1 = Some wd0 /\ wdir t2 = Some wd0
    /\ parse_manifest kf = Ok m0 /\ check_input e m0 = true /\ check_create m0 = true
    /\ (exists n, open_in e [WD] MF t1 = Some n /\ e_parse e (s_cont s n) = Some kf)
    /\ m = with_images m0 l /\ Forall2 (summed e (s_cont s) (fun f => open_in e [WD] f t1)) (mf_images m0) l
    /\ wdir t3 = Some d /\ sim (out_of (touched kf m0)) wd0 d
    /\ assoc MF d = Some (Reg j) /\ s_cont t3 j = CText (prepare_manifest m')
    /\ (forall i, i < s_next s -> s_cont t3 i = s_cont s i)
    /\ m' = with_images m (map (conv_of kf) l)
    /\ s_out s' = Some o /\ layers (mf_format m0) d (s_cont t3) meta ms o /\ same_header m' ms /\ mf_images ms = mf_images m'
    /\ (if bformat_eqb (mf_format m0) F_PLAIN then check_internal (e_rauc e) ms else check_external (e_rauc e) ms) = Ok ms
    /\ tget (s_root s') [WD] = None.
Proof.
  intros e s s' O H. apply create_inv in H as (k & s1 & B & H); [| assumption].
  destruct (proj1 (body_flags _ _ _ _ _ B)) as [_ F]. rewrite (F eq_refl) in B, H. subst s1. clear F.
  rewrite body_eq in B. destruct (load_phase e s) as [[[[wd kf] m] |] t1] eqn:LP; [| discriminate].
  destruct (load_phase_inv _ _ _ _ _ _ LP) as (root1 & wd0 & m0 & n & -> & C1 & N1 & O1 & F1 & S1 & L1 & W1 & SR1 & OM & EP & PM & CI & CC & l & -> & FL).
  destruct (needs_fakeroot e (with_images m0 l)) as [nf meta] eqn:NF.
  destruct (fake_step e nf t1) as [[u |] t2] eqn:FS; [| discriminate].
  destruct (pack_phase e [WD] kf (with_images m0 l) meta nf t2) as [[m' |] t3] eqn:PP; [| discriminate].
  destruct (sign_phase e m' t3) as [[u' | |] t4] eqn:SP; try discriminate.
  destruct (rm_tree e [WD] t4) as [[[] |] t5] eqn:RM; [| discriminate]. injection B as <-.
  assert (A2 : s_root t2 = s_root t1 /\ s_cont t2 = s_cont t1 /\ s_next t2 = s_next t1 /\ s_out t2 = s_out t1).
  { destruct nf; cbn in FS; [| injection FS as _ <-; repeat split].
    destruct (a_ok _); [injection FS as _ <-; repeat split | discriminate]. }
  destruct A2 as (R2 & C2 & N2 & O2).
  assert (W2 : wdir t2 = Some wd0) by (unfold wdir in *; rewrite R2; assumption).
  destruct (pack_inv _ _ _ _ _ _ _ _ PP _ W2 ltac:(congruence)) as (d & j & P1 & P2 & P3 & P4 & P5 & P6 & P7).
  rewrite (touched_sum _ _ _ _ _ _ FL) in P3.
  assert (IM : forall i, In i (mf_images m') -> im_filename i = None \/ (0 <= im_size i)%Z).
  { rewrite P7. cbn [with_images mf_images]. intros i I. apply in_map_iff in I as (i1 & <- & I). clear - FL I.
    induction FL as [| a b r r' Hab R IH]; [destruct I |]. destruct I as [-> | I]; [| auto].
    unfold summed in Hab. unfold conv_of. destruct (im_filename a) as [f |] eqn:Fa.
    - destruct Hab as (n & _ & ->). right. cbn [with_sum im_filename]. rewrite Fa. destruct (has_key _ _ _); cbn; lia.
    - subst i1. left. cbn [with_sum im_filename]. rewrite Fa. destruct (has_key _ _ _); cbn; assumption. }
  destruct (sign_phase_inv _ _ _ _ _ _ _ _ SP P1 IM) as (R4 & C4 & o & ms & Z1 & Z2 & Z3 & Z4 & Z5).
  destruct (rm_wd _ _ _ RM) as (M1 & M2 & M3). destruct (cleanup_same e nf t5) as (K1 & K2 & K3 & K4).
  assert (FM : mf_format m' = mf_format m0) by (rewrite P7; reflexivity). rewrite FM in Z2, Z5.
  exists t1, t2, t3, kf, (with_images m0 l), root1, wd0, m0, l, nf, meta, u, t4, t5, m', d, j, o, ms.
  split; [reflexivity |]. split; [assumption |]. split; [assumption |]. split; [assumption |]. split; [assumption |]. split; [reflexivity |].
  split; [congruence |]. split; [congruence |]. split; [assumption |]. split; [assumption |]. split; [assumption |]. split; [assumption |].
  split; [assumption |]. split; [assumption |]. split; [assumption |]. split; [exists n; auto |]. split; [reflexivity |]. split; [assumption |].
  split; [assumption |]. split; [assumption |]. split; [assumption |]. split; [assumption |].
  split; [intros i Hi; rewrite P6 by congruence; congruence |]. split; [assumption |].
  split; [congruence |]. split; [assumption |]. split; [assumption |]. split; [assumption |]. split; [assumption |]. rewrite K1. assumption.
Qed.

Lemma map_forall2 : forall (R : image -> image -> Prop) (f : image -> image) l l1, Forall2 R l l1 -> Forall2 (fun a b => exists c, R a c /\ b = f c) l (map f l1).
Proof. intros R f l l1 H. induction H; constructor; eauto. Qed.

Lemma c62_success_ok : forall e s s', s_out s = None -> create_bundle e s = (Ret true false, s') ->
  exists o d c meta kf m0 ms j,
    s_out s' = Some o
    /\ layers (mf_format m0) d c meta ms o
    /\ tget (s_root s') [".rauc-workdir"] = None
    /\ parse_manifest kf = Ok m0
    /\ (forall n, assoc "manifest.raucm" (s_root s) = Some (Reg n) -> e_parse e (s_cont s n) = Some kf)
    /\ same_header m0 ms
    /\ Forall2 (described e s kf) (mf_images m0) (mf_images ms)
    /\ (if bformat_eqb (mf_format m0) F_PLAIN then check_internal (e_rauc e) ms else check_external (e_rauc e) ms) = Ok ms
    /\ assoc "manifest.raucm" d = Some (Reg j) /\ c j = CText (prepare_manifest (with_images m0 (mf_images ms)))
    /\ (meta = true <-> exists i, In i (mf_images m0) /\ In "tar-extract" (im_convert i))
    /\ (forall n p k, ~ In n (touched kf m0) -> (shows d (n :: p) k <-> sees (e_max e) (e_up e) (s_root s) (n :: p) k))
    /\ (forall n i, ~ In n (touched kf m0) -> n <> ".rauc-workdir" -> assoc n (s_root s) = Some (Reg i) -> assoc n d = Some (Reg i))
    /\ (forall i, i < s_next s -> c i = s_cont s i)
    /\ (forall p x n a, reached (e_max e) (e_up e) (s_root s) p x -> In (n, a) x -> n <> ".rauc-workdir" ->
          allowed (match p with [] => true | _ => false end) n a).
Proof.
  intros e s s' O H.
  destruct (success_inv _ _ _ O H) as (t1 & t2 & t3 & kf & m & root1 & wd0 & m0 & l & nf & meta & u & t4 & t5 & m' & d & j & o & ms &
    LP & NF & FS & PP & RM & -> & C2 & N2 & S1 & L1 & W1 & W2 & PM & CI & CC & (n & OM & EP) & -> & FL & W3 & SD & J1 & J2 & CT & -> & Z1 & Z2 & Z3 & Z4 & Z5 & RT).
  assert (FD : Forall2 (described e s kf) (mf_images m0) (mf_images ms)).
  { rewrite Z4. cbn [with_images mf_images]. apply (map_forall2 _ (conv_of kf)) in FL.
    assert (I : forall i, In i (mf_images m0) -> In i (mf_images m0)) by auto.
    clear - FL I L1 S1 W1 CI. revert FL I. generalize (map (conv_of kf) l) as lc. generalize (mf_images m0) at 1 2 4 as l0.
    intros l0 lc FL. induction FL as [| a b r r' (c & Hc & ->) R IH]; intro I; constructor.
    - eapply conv_summed_described; try eassumption. apply I. left. reflexivity.
    - apply IH. intros x Hx. apply I. right. assumption. }
  exists o, d, (s_cont t3), meta, kf, m0, ms, j.
  split; [assumption |]. split; [assumption |]. split; [exact RT |]. split; [assumption |].
  split. { intros k A. assert (X := open_top _ _ _ root1 _ _ k L1 W1 OM). rewrite <- X; [assumption |].
           rewrite <- (sim_assoc _ _ _ _ S1); [assumption | reflexivity]. }
  split; [exact Z3 |]. split; [exact FD |]. split; [assumption |]. split; [exact J1 |].
  split; [rewrite Z4; exact J2 |].
  split.
  { assert (X : meta = existsb (fun i => wants i "tar-extract") (mf_images m0)).
    { unfold needs_fakeroot in NF. injection NF as _ <-. cbn [with_images mf_images]. clear - FL.
      induction FL as [| a b r r' Hab R IH]; [reflexivity |]. cbn [existsb]. rewrite IH. f_equal. unfold wants, summed in *.
      destruct (im_filename a); [destruct Hab as (n & _ & ->) | subst b]; reflexivity. }
    rewrite X, existsb_exists. unfold wants. split; intros (i & I & Hi); exists i; (split; [assumption |]);
      [apply existsb_exists in Hi as (x & Ix & Ex); apply String.eqb_eq in Ex; subst; assumption |
       apply existsb_exists; exists "tar-extract"; split; [assumption | apply String.eqb_refl]]. }
  assert (LS := link_any_sees (S (e_max e)) (e_link e) (Dir root1) (e_max e) (e_up e) true [] root1 eq_refl (Nat.lt_succ_diag_r _) _ L1).
  split.
  { intros x p k NI. rewrite (sees_sim_iff _ _ _ _ _ _ S1), <- LS. apply out_of_not in NI.
    split; apply shows_sim with (k := out_of (touched kf m0)); auto using sim_sym. }
  split.
  { intros x i NI NW A. rewrite <- (sim_assoc _ _ _ _ SD) by (apply out_of_not; assumption).
    unfold linked in L1. rewrite link_eq in L1. assert (X := each_assoc _ _ _ _ _ _ _ _ _ L1 x NW).
    rewrite <- (sim_assoc _ _ _ x S1), A in X by (apply notwd_true; assumption). exact X. }
  split; [exact CT |].
  intros p x a b R I NW. destruct (reached_sim _ _ _ _ _ R (e_up e) root1 (sims_refl _) S1) as (x' & R' & SX).
  apply (link_any_allowed (S (e_max e)) (e_link e) (Dir root1) (e_max e) (e_up e) true [] root1 eq_refl (Nat.lt_succ_diag_r _) _ L1 p x' R'); [| assumption].
  eapply sim_in; [exact SX | apply notwd_true; assumption | assumption].
Qed.
