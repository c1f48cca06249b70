(** When bundle creation must succeed. *)
From Verif Require Import Base BaseLemmas KeyFile KeyFileLemmas Image Manifest BundleCreate BundleCreateSpec BundleCreateLink BundleCreateFrame
  BundleCreateProofs BundleCreateRun BundleCreateOut BundleCreateDone BundleCreateEnd BundleCreateConv BundleCreateMore.

(** ** linking succeeds when every entry reached is allowed *)

Lemma no_slash_prefix : forall t, has_char "/" t = false -> has_prefix "/" t = false.
Proof.
  intros [| c t] H; [reflexivity |]. cbn [has_prefix has_char] in *. destruct (Ascii.eqb_spec c "/") as [-> | N].
  - rewrite ?Ascii.eqb_refl in H. discriminate.
  - rewrite (proj2 (Ascii.eqb_neq "/" c)) by congruence. reflexivity.
Qed.
Lemma allowed_content_ok : forall top n c, allowed top n c -> content_ok top n c = true.
Proof.
  intros top n [i | es | t |] H; cbn [allowed content_ok] in *; try reflexivity; try contradiction.
  - destruct top; [| reflexivity]. rewrite H by reflexivity. reflexivity.
  - rewrite H, no_slash_prefix by assumption. reflexivity.
Qed.

Lemma follow_not_work : forall b up es t, t <> WD -> (forall n, n <> WD -> ~ In (n, Lnk WD) es) -> follow b up es t <> FWork.
Proof.
  induction b as [| b IH]; intros up es t N L; cbn [follow];
    (destruct (String.eqb t "."); [discriminate |]; destruct (String.eqb t ".."); [destruct up; discriminate |];
     destruct (String.eqb_spec t WD) as [E | _]; [contradiction |]; destruct (assoc t es) as [[| | u |] |] eqn:A; try discriminate).
  apply IH; [| assumption]. intros ->. apply (L t N). apply assoc_in. assumption.
Qed.

Lemma link_any_live : forall d ok n b up top path es, n = Dir es -> b < d -> (forall p, ok p = true) ->
  (forall p x m c, reached b up es p x -> In (m, c) x -> m <> WD ->
     allowed (match p with [] => top | _ => false end) m c /\ c <> Lnk WD) ->
  fst (link_any ok d b up top path (Dir es)) = true.
Proof.
  induction d as [| d IHd]; [intros; lia |].
  intros ok n. induction n as [| | | es0 IHn] using node_ind'; try discriminate.
  intros b up top path es E B OK H. injection E as ->. rewrite link_eq.
  assert (G : forall l, incl l es -> fst (each_ ok (S d) b up top path es l) = true); [| apply G, incl_refl].
  induction l as [| [name c] r IH]; intro I; [reflexivity |].
  specialize (IH (fun y Hy => I y (or_intror Hy))). assert (I0 := I _ (or_introl eq_refl)).
  rewrite each_cons. cbv zeta. destruct (String.eqb_spec name WD) as [-> | Nw]; [assumption |].
  destruct (H [] es name c (re_here _ _ _) I0 Nw) as [AL NL]. rewrite (allowed_content_ok _ _ _ AL). cbn [negb].
  rewrite OK. destruct c as [i | es1 | t |].
  - exact IH.
  - match goal with |- context [if fst ?L then _ else _] => assert (X : fst L = true) end.
    { rewrite Forall_forall in IHn. apply (IHn _ I0 b (es :: up) false (path ++ [name]) es1 eq_refl B OK).
      intros p x m c R Im Nm. destruct (H (name :: p) x m c (re_sub _ _ _ _ _ _ _ I0 Nw R) Im Nm) as [A1 A2]. split; [destruct p; exact A1 | exact A2]. }
    rewrite X. exact IH.
  - assert (NF : match b with O => FNone | S b' => follow b' up es t end <> FWork).
    { destruct b; [discriminate |]. apply follow_not_work; [congruence |]. intros n Nn In1. destruct (H [] es n _ (re_here _ _ _) In1 Nn) as [_ X]. congruence. }
    destruct (match b with O => FNone | S b' => follow b' up es t end) as [| i | es' up' b' | |] eqn:F; try exact IH; [| congruence].
    match goal with |- context [if fst ?L then _ else _] => assert (X : fst L = true) end.
    { destruct b as [| b0]; [discriminate |]. apply follow_leads in F as (j & L & J & ->).
      apply (IHd ok (Dir es') (b0 - j) up' false (path ++ [name]) es' eq_refl ltac:(lia) OK).
      intros p x m c R Im Nm.
      assert (R' : reached (S b0) up es (name :: p) x) by (eapply re_link; [exact I0 | assumption | exact L | lia | exact R]).
      destruct (H (name :: p) x m c R' Im Nm) as [A1 A2]. split; [destruct p; exact A1 | exact A2]. }
    rewrite X. exact IH.
  - exact IH.
Qed.

(** ** the run *)

Definition works (e : env) : Prop := forall k, a_ok (e_ans e k) = true.
Definition lgd (k : call) (s : st) : st := mkSt (s_root s) (s_cont s) (s_next s) (s_out s) (s_fake s) (k :: s_log s).
Lemma ask_ok_live : forall e k s, works e -> ask_ok e k s = (Some tt, lgd k s).
Proof. intros e k s W. unfold ask_ok, mbind, ask. rewrite W. reflexivity. Qed.
Lemma rm_live : forall e p s, works e -> rm_tree e p s = (Some tt, put p None (lgd (KRmTree p) s)).
Proof. intros e p s W. unfold rm_tree, mbind, ask. rewrite W. reflexivity. Qed.

(** what is known of the working directory's state while images are only read *)
Definition same (s s' : st) : Prop := s_root s' = s_root s /\ s_cont s' = s_cont s /\ s_next s' = s_next s /\ s_out s' = s_out s.
Lemma same_refl : forall s, same s s. Proof. repeat split. Qed.
Lemma same_trans : forall a b c, same a b -> same b c -> same a c.
Proof. intros a b c (? & ? & ? & ?) (? & ? & ? & ?). repeat split; congruence. Qed.
Lemma same_lgd : forall k s, same s (lgd k s). Proof. repeat split. Qed.

Definition plain_name (n : string) : Prop := n <> "." /\ n <> ".." /\ n <> ".rauc-workdir".

Lemma open_live : forall e s w f n, wdir s = Some w -> plain_name f -> assoc f w = Some (Reg n) -> open_in e [WD] f s = Some n.
Proof.
  intros e s w f n W (N1 & N2 & N3) A. unfold open_in, wdir in *. destruct (tget (s_root s) [WD]) as [[| es | |] |]; try discriminate.
  injection W as ->. destruct (e_max e); cbn [follow];
    rewrite (proj2 (String.eqb_neq f ".") N1), (proj2 (String.eqb_neq f "..") N2), (proj2 (String.eqb_neq f WD) N3), A; reflexivity.
Qed.
Lemma exists_live : forall e s w f n, wdir s = Some w -> plain_name f -> assoc f w = Some (Reg n) -> exists_in e [WD] f s = true.
Proof.
  intros e s w f n W N A. assert (O := open_live e s w f n W N A). unfold open_in, exists_in in *.
  destruct (tget (s_root s) [WD]) as [[| es | |] |]; try discriminate. destruct (follow _ _ _ _); congruence.
Qed.

Lemma checksum_live : forall e w c l s, works e -> wdir s = Some w -> s_cont s = c ->
  (forall i f, In i l -> im_filename i = Some f -> plain_name f /\ exists n, assoc f w = Some (Reg n)) ->
  exists l' s', each_image (checksum_image e [WD]) l s = (Some l', s') /\ same s s'.
Proof.
  intros e w c l s W. revert s. induction l as [| i r IH]; intros s Ww Cc H; cbn [each_image].
  - exists [], s. split; [reflexivity | apply same_refl].
  - assert (X : exists i' s1, checksum_image e [WD] i s = (Some i', s1) /\ same s s1).
    { unfold checksum_image. destruct (im_filename i) as [f |] eqn:F; [| eexists _, s; split; [reflexivity | apply same_refl]].
      destruct (H i f (or_introl eq_refl) F) as (P & n & A). unfold mbind at 1, get at 1. rewrite (open_live _ _ _ _ _ Ww P A).
      unfold mbind. rewrite ask_ok_live by assumption. eexists _, _. split; [reflexivity | apply same_lgd]. }
    destruct X as (i' & s1 & E1 & S1). unfold mbind at 1. rewrite E1.
    destruct (IH s1) as (l' & s2 & E2 & S2).
    { unfold wdir in *. destruct S1 as (-> & _). assumption. }
    { destruct S1 as (_ & -> & _). assumption. }
    { intros j f I. apply H. right. assumption. }
    unfold mbind. rewrite E2. eexists _, s2. split; [reflexivity | eapply same_trans; eassumption].
Qed.

(** images with nothing to generate or convert *)
Definition simple_image (kf : keyfile) (i : image) : Prop :=
  im_adaptive i = [] /\ kf_get kf (image_group i) "convert" = None /\ kf_get kf (image_group i) "converted" = None.
Lemma generate_live : forall e d l s, (forall i, In i l -> im_adaptive i = []) -> generate_adaptive e d l s = (Some tt, s).
Proof.
  induction l as [| i r IH]; intros s H; cbn [generate_adaptive]; [reflexivity |].
  rewrite (H i (or_introl eq_refl)). unfold mbind, ret. apply IH. intros; apply H; right; assumption.
Qed.
Lemma convert_live : forall e kf d fake l s, (forall i, In i l -> kf_get kf (image_group i) "convert" = None /\ kf_get kf (image_group i) "converted" = None) ->
  each_image (convert_image e kf d fake) l s = (Some l, s).
Proof.
  induction l as [| i r IH]; intros s H; cbn [each_image]; [reflexivity |].
  destruct (H i (or_introl eq_refl)) as [A B]. unfold mbind at 1. unfold convert_image at 1, has_key. rewrite A, B. cbn [andb negb]. unfold ret at 1.
  unfold mbind. rewrite IH by (intros; apply H; right; assumption). reflexivity.
Qed.

Lemma summed_fields : forall e c op i i', summed e c op i i' ->
  image_group i' = image_group i /\ im_artifact i' = im_artifact i /\ im_filename i' = im_filename i /\ im_type i' = im_type i
  /\ im_pre i' = im_pre i /\ im_install i' = im_install i /\ im_post i' = im_post i /\ im_adaptive i' = im_adaptive i
  /\ im_convert i' = im_convert i /\ im_converted i' = im_converted i.
Proof. intros e c op [] i' H. unfold summed in H. cbn in H. destruct im_filename; [destruct H as (? & _ & ->) | subst]; repeat split. Qed.

Lemma common_live : forall r m l (P : image -> image -> Prop), (forall i i', P i i' -> im_pre i' = im_pre i /\ im_install i' = im_install i /\ im_post i' = im_post i
    /\ filename_req i' = filename_req i) -> Forall2 P (mf_images m) l -> check_common r (with_images m l) = check_common r m.
Proof.
  intros r m l P H F. unfold check_common. cbn [with_images mf_min_rauc mf_install_check mf_images mf_hook].
  assert (X : existsb (fun i => im_pre i || im_install i || im_post i) l = existsb (fun i => im_pre i || im_install i || im_post i) (mf_images m)
     /\ forallb filename_req l = forallb filename_req (mf_images m)).
  { induction F as [| a b r1 r2 Hab F IH]; [auto |]. cbn [existsb forallb]. destruct (H _ _ Hab) as (-> & -> & -> & ->).
    destruct IH as [-> ->]. auto. }
  destruct X as [-> ->]. reflexivity.
Qed.

Lemma bundled_live : forall l, (forall i, In i l -> im_convert i = [] /\ match im_filename i with
     | Some f => has_char "/" f = false /\ (0 <= im_size i)%Z /\ exists d, im_digest i = Some d /\ is_valid_digest d = true
     | None => True end) -> check_bundled l = Ok l.
Proof.
  induction l as [| i r IH]; intro H; [reflexivity |]. cbn [check_bundled].
  assert (X : check_bundled_image i = Ok i).
  { destruct (H i (or_introl eq_refl)) as [C F]. unfold check_bundled_image. destruct (im_filename i); [| reflexivity].
    destruct F as (-> & Z & d & -> & ->). cbn [negb]. rewrite (proj2 (Z.ltb_ge _ _) Z). unfold bind. rewrite C. reflexivity. }
  rewrite X. unfold bind at 1. rewrite IH by (intros; apply H; right; assumption). reflexivity.
Qed.

Lemma c62_completes_ok : forall e s n kf m0,
  (forall k, a_ok (e_ans e k) = true) ->
  (forall k, hex32 (Some (a_s1 (e_ans e k))) = true /\ hex32 (Some (a_s2 (e_ans e k))) = true
             /\ (a_n (e_ans e k) <> 0)%N /\ (a_n (e_ans e k) mod 4096 = 0)%N) ->
  (forall p, e_link e p = true) -> (forall c, is_valid_digest (e_sha e c) = true) ->
  s_out s = None -> (forall t, assoc ".rauc-workdir" (s_root s) <> Some (Lnk t)) ->
  (forall p x a c, reached (e_max e) (e_up e) (s_root s) p x -> In (a, c) x -> a <> ".rauc-workdir" ->
     allowed (match p with [] => true | _ => false end) a c /\ c <> Lnk ".rauc-workdir") ->
  assoc "manifest.raucm" (s_root s) = Some (Reg n) -> e_parse e (s_cont s n) = Some kf -> parse_manifest kf = Ok m0 ->
  check_input e m0 = true -> check_create m0 = true ->
  mf_verity_hash m0 = None -> mf_verity_salt m0 = None -> mf_verity_size m0 = 0%N -> mf_crypt_key m0 = None ->
  (forall h, mf_hook m0 = Some h -> plain_name h /\ exists k, assoc h (s_root s) = Some (Reg k)) ->
  (forall i, In i (mf_images m0) -> simple_image kf i
     /\ forall f, im_filename i = Some f -> plain_name f /\ exists k, assoc f (s_root s) = Some (Reg k)) ->
  fst (create_bundle e s) = Ret true false.
Proof.
  intros e s n kf m0 W V EL SH O NL RE MA EP PM CI CC VH VS VZ CK HK IM.
  (* prepare *)
  assert (P : exists w t1, prepare_workdir e s = (Some [WD], t1) /\ wdir t1 = Some w /\ s_cont t1 = s_cont s /\ s_out t1 = None
      /\ forall f k, f <> WD -> assoc f (s_root s) = Some (Reg k) -> assoc f w = Some (Reg k)).
  { unfold prepare_workdir. unfold mbind at 1, get at 1.
    assert (X : exists s1, (match tget (s_root s) [WD] with
        | Some (Lnk _) => let* a := ask e KStat in (if a_ok a then rm_tree e [WD] else ret tt)
        | Some _ => rm_tree e [WD] | None => ret tt end) s = (Some tt, s1)
        /\ sim notwd (s_root s) (s_root s1) /\ assoc WD (s_root s1) = None /\ s_cont s1 = s_cont s /\ s_out s1 = s_out s).
    { assert (R : exists s1, rm_tree e [WD] s = (Some tt, s1) /\ sim notwd (s_root s) (s_root s1) /\ assoc WD (s_root s1) = None
          /\ s_cont s1 = s_cont s /\ s_out s1 = s_out s).
      { rewrite rm_live by assumption. eexists. split; [reflexivity |]. cbn [put set_root lgd s_root s_cont s_out tput].
        split; [apply sim_remove; reflexivity |]. split; [apply assoc_remove_eq | auto]. }
      cbn [tget]. destruct (assoc WD (s_root s)) as [[| es | t |] |] eqn:A; try exact R.
      - exfalso. apply (NL t). exact A.
      - exists s. repeat split; try reflexivity. exact A. }
    destruct X as (s1 & E1 & S1 & A1 & C1 & O1). unfold mbind at 1. rewrite E1.
    assert (X : exists s2, mkdir e [WD] s1 = (Some tt, s2) /\ sim notwd (s_root s) (s_root s2) /\ s_cont s2 = s_cont s /\ s_out s2 = s_out s).
    { unfold mkdir. unfold mbind at 1, get at 1. cbn [tget]. rewrite A1. unfold mbind. rewrite ask_ok_live by assumption.
      eexists. split; [reflexivity |]. cbn [put set_root lgd s_root s_cont s_out tput].
      split; [eapply sim_trans; [exact S1 | apply sim_set; reflexivity] | auto]. }
    destruct X as (s2 & E2 & S2 & C2 & O2). unfold mbind at 1. rewrite E2. unfold mbind at 1, get at 1.
    destruct (link_any (e_link e) (S (e_max e)) (e_max e) (e_up e) true [] (Dir (s_root s2))) as [ok w] eqn:L.
    assert (OKT : ok = true).
    { change ok with (fst (ok, w)). rewrite <- L. apply (link_any_live _ _ (Dir (s_root s2))); [reflexivity | lia | assumption |].
      intros p x m c R I Nm. destruct (reached_sim _ _ _ _ _ R (e_up e) (s_root s) (sims_refl _) (sim_sym _ _ _ S2)) as (x' & R' & SX).
      apply (RE p x' m c R'); [| assumption]. eapply sim_in; [exact SX | apply notwd_true; assumption | assumption]. }
    subst ok. unfold mbind, modify, guard, ret. exists w. eexists. split; [reflexivity |].
    split; [unfold wdir, put, set_root; cbn [s_root tget tput]; rewrite assoc_set_eq; reflexivity |].
    split; [exact C2 |]. split; [cbn; congruence |].
    intros f k Nf A. rewrite link_eq in L. assert (Y := each_assoc _ _ _ _ _ _ _ _ _ L f Nf).
    rewrite <- (sim_assoc _ _ _ f S2), A in Y by (apply notwd_true; assumption). exact Y. }
  destruct P as (w & t1 & P & W1 & C1 & O1 & TOP).
  assert (MFN : plain_name MF) by (repeat split; discriminate).
  assert (IMW : forall i f, In i (mf_images m0) -> im_filename i = Some f -> plain_name f /\ exists k, assoc f w = Some (Reg k)).
  { intros i f I F. destruct (IM i I) as [_ X]. destruct (X f F) as (N & k & A). split; [assumption |]. exists k. apply TOP; [apply N | assumption]. }
  (* load *)
  assert (LP : exists l t2, load_phase e s = (Some ([WD], kf, with_images m0 l), t2) /\ wdir t2 = Some w /\ s_cont t2 = s_cont s /\ s_out t2 = None).
  { unfold load_phase. unfold mbind at 1. rewrite P.
    assert (LD : load_manifest e [WD] t1 = (Some (kf, m0), lgd KLoad t1)).
    { unfold load_manifest. unfold mbind at 1, get at 1. rewrite (open_live e t1 w MF n W1 MFN) by (apply TOP; [discriminate | assumption]).
      unfold mbind. rewrite ask_ok_live, C1, EP, PM by assumption. reflexivity. }
    unfold mbind at 1. rewrite LD. cbn [fst snd]. rewrite CI, CC.
    unfold mbind at 1, guard at 1, ret at 1. unfold mbind at 1, guard at 1, ret at 1.
    assert (Wl : wdir (lgd KLoad t1) = Some w) by exact W1.
    destruct (checksum_live e w (s_cont s) (mf_images m0) (lgd KLoad t1) W Wl C1 IMW) as (l & t2 & EA & SA).
    exists l, t2. split.
    - unfold mbind at 1. unfold sync_manifest. unfold mbind at 1, get at 1.
      assert (G1 : forallb (fun i => match im_filename i with Some f => exists_in e [WD] f (lgd KLoad t1) | None => true end) (mf_images m0) = true).
      { apply forallb_forall. intros i I. destruct (im_filename i) as [f |] eqn:F; [| reflexivity].
        destruct (IMW i f I F) as (N & k & A). eapply exists_live; eassumption. }
      assert (G2 : match mf_hook m0 with Some h => exists_in e [WD] h (lgd KLoad t1) | None => true end = true).
      { destruct (mf_hook m0) as [h |] eqn:F; [| reflexivity]. destruct (HK h eq_refl) as (N & k & A).
        eapply exists_live; [exact Wl | exact N | apply TOP; [apply N | exact A]]. }
      rewrite G1, G2. unfold mbind at 1, guard at 1, ret at 1. unfold mbind at 1, guard at 1, ret at 1. unfold mbind at 1. rewrite EA. reflexivity.
    - destruct SA as (R & C & N & OO). split; [unfold wdir in *; rewrite R; exact W1 |]. split; [rewrite C; exact C1 | rewrite OO; exact O1]. }
  destruct LP as (l & t2 & LP & W2 & C2 & O2).
  destruct (load_phase_inv _ _ _ _ _ _ LP) as (_r & _w & m0' & n' & _ & _ & _ & _ & _ & _ & _ & _ & _ & ON & EP' & PM' & _ & _ & l' & EM & FL).
  assert (m0' = m0 /\ l' = l) as [-> ->].
  { assert (n' = n). { rewrite (open_live e t2 w MF n W2 MFN) in ON by (apply TOP; [discriminate | assumption]). congruence. }
    subst n'. rewrite PM in PM'. apply Ok_inj in PM'. subst m0'. split; [reflexivity |].
    apply (f_equal mf_images) in EM. cbn [with_images mf_images] in EM. congruence. }
  clear EM PM' EP' ON.
  assert (SI : forall i', In i' l -> exists i, In i (mf_images m0) /\ summed e (s_cont s) (fun f => open_in e [WD] f t2) i i').
  { clear - FL. induction FL as [| a b r r' Hab F IH]; [intros ? [] |]. intros i' [<- | I]; [exists a; split; [left; reflexivity | assumption] |].
    destruct (IH i' I) as (i & ? & ?). exists i. split; [right |]; assumption. }
  assert (NC : forall i, In i (mf_images m0) -> im_convert i = []).
  { intros i I. destruct (im_convert i) eqn:E; [reflexivity |]. assert (X := parse_convert_key _ _ i PM I ltac:(congruence)).
    destruct (IM i I) as [(_ & K & _) _]. rewrite K in X. discriminate. }
  (* no fakeroot *)
  assert (NF : needs_fakeroot e (with_images m0 l) = (false, false)).
  { assert (X : forall m, existsb (fun i => wants i m) l = false).
    { intro m. destruct (existsb _ l) eqn:E; [| reflexivity]. apply existsb_exists in E as (i' & I & E). destruct (SI i' I) as (i & I0 & S0).
      apply summed_fields in S0 as (_ & _ & _ & _ & _ & _ & _ & _ & C & _). unfold wants in E. rewrite C, (NC i I0) in E. discriminate. }
    unfold needs_fakeroot. cbn [with_images mf_images]. rewrite X.
    assert (Y : existsb (fun i => wants i "tar-extract" || wants i "composefs") l = false).
    { destruct (existsb _ l) eqn:E; [| reflexivity]. apply existsb_exists in E as (i' & I & E). apply orb_prop in E as [E | E];
        [rewrite <- (X "tar-extract") | rewrite <- (X "composefs")]; symmetry; apply existsb_exists; eauto. }
    rewrite Y. reflexivity. }
  (* pack *)
  assert (SM : forall i', In i' l -> im_adaptive i' = [] /\ kf_get kf (image_group i') "convert" = None /\ kf_get kf (image_group i') "converted" = None).
  { intros i' I. destruct (SI i' I) as (i & I0 & S0). destruct (IM i I0) as [(A & B & C) _].
    apply summed_fields in S0 as (-> & _ & _ & _ & _ & _ & _ & -> & _). auto. }
  assert (WM : assoc MF w = Some (Reg n)) by (apply TOP; [discriminate | assumption]).
  assert (PP : exists t3 d, pack_phase e [WD] kf (with_images m0 l) false false t2 = (Some (with_images m0 l), t3) /\ s_out t3 = Some d).
  { unfold pack_phase. cbn [with_images mf_images app].
    unfold mbind at 1. rewrite generate_live by (intros i I; apply (SM i I)).
    unfold mbind at 1. rewrite convert_live by (intros i I; apply (SM i I)).
    unfold mbind at 1. unfold set_contents. unfold mbind at 1, get at 1.
    assert (TW : tget (s_root t2) [WD] = Some (Dir w)).
    { unfold wdir in W2. destruct (tget (s_root t2) [WD]) as [[| es | |] |]; try discriminate. congruence. }
    assert (TM : tget (s_root t2) [WD; MF] = Some (Reg n)).
    { cbn [tget] in TW |- *. destruct (assoc WD (s_root t2)) as [[| es | |] |]; try discriminate. injection TW as ->. rewrite WM. reflexivity. }
    rewrite TM. unfold mbind at 1. rewrite ask_ok_live by assumption. unfold modify at 1.
    unfold mbind at 1, mksquashfs. unfold mbind at 1, get at 1. cbn [s_out lgd]. rewrite O2. unfold mbind at 1, ask at 1. rewrite W.
    assert (TW' : tget (tput (s_root t2) [WD; MF] (Some (Reg (s_next t2)))) [WD] = Some (Dir (assoc_set MF (Reg (s_next t2)) w))).
    { cbn [tget tput] in TW |- *. destruct (assoc WD (s_root t2)) as [[| es | |] |]; try discriminate. injection TW as ->. rewrite assoc_set_eq. reflexivity. }
    cbn [s_root lgd s_next]. rewrite TW'. unfold modify, ret. eexists _, _. split; reflexivity. }
  destruct PP as (t3 & o & PP & O3).
  (* sign *)
  assert (CB : check_bundled l = Ok l).
  { apply bundled_live. intros i' I. destruct (SI i' I) as (i & I0 & S0). destruct (input_image _ _ _ CI I0) as (_ & _ & _ & D4).
    assert (S1 := S0). apply summed_fields in S1 as (_ & _ & F & _ & _ & _ & _ & _ & C & _). split; [rewrite C; auto |].
    unfold summed in S0. rewrite F in *. destruct (im_filename i) as [f |]; [| exact Logic.I]. destruct S0 as (k & _ & ->).
    split; [assumption |]. split; [destruct i; cbn; lia |]. exists (e_sha e (s_cont s k)). split; [destruct i; reflexivity | apply SH]. }
  assert (CM : check_common (e_rauc e) (with_images m0 l) = true).
  { rewrite (common_live _ _ _ (summed e (s_cont s) (fun f => open_in e [WD] f t2))); [| | assumption].
    - unfold check_input in CI. apply andb_prop in CI as [CI _]. apply andb_prop in CI as [CI _]. assumption.
    - intros i i' S0. apply summed_fields in S0 as (_ & _ & F & T & P1 & P2 & P3 & A & C & _). unfold filename_req.
      rewrite F, T, P1, P2, P3, A, C. auto. }
  assert (SG : exists t4, sign_phase e (with_images m0 l) t3 = (FVal tt, t4)).
  { assert (EXT : forall m k, check_common (e_rauc e) m = true -> mf_format m <> F_PLAIN -> (mf_format m = F_CRYPT -> hex32 (mf_crypt_key m) = true) ->
        mf_images m = l -> exists x, check_external (e_rauc e) (with_verity m (a_s1 (e_ans e k)) (a_s2 (e_ans e k)) (a_n (e_ans e k))) = Ok x).
    { intros m k Cm Fm Km Im. destruct (V k) as (V1 & V2 & V3 & V4). unfold check_external.
      change (check_common (e_rauc e) (with_verity m _ _ _)) with (check_common (e_rauc e) m). rewrite Cm. cbn [negb with_verity mf_format mf_crypt_key mf_verity_hash mf_verity_salt mf_verity_size mf_images].
      destruct (bformat_eqb (mf_format m) F_PLAIN) eqn:E1; [destruct (mf_format m); try discriminate; congruence |].
      assert (E2 : bformat_eqb (mf_format m) F_CRYPT && negb (hex32 (mf_crypt_key m)) = false).
      { destruct (mf_format m); try reflexivity. rewrite Km by reflexivity. reflexivity. }
      rewrite E2, V1, V2, V4, (proj2 (N.eqb_neq _ _) V3). cbn [andb negb N.eqb]. rewrite Im, CB. unfold bind. eexists. reflexivity. }
    assert (SB : forall m t, check_common (e_rauc e) m = true -> mf_format m <> F_PLAIN -> (mf_format m = F_CRYPT -> hex32 (mf_crypt_key m) = true) ->
        mf_images m = l -> mf_verity_hash m = None -> mf_verity_salt m = None -> mf_verity_size m = 0%N -> exists t4, sign_bundle e m t = (FVal tt, t4)).
    { intros m t Cm Fm Km Im M1 M2 M3. unfold sign_bundle. destruct (bformat_eqb (mf_format m) F_PLAIN) eqn:E1; [destruct (mf_format m); try discriminate; congruence |].
      unfold create_verity. unfold lift at 1. rewrite ask_ok_live by assumption. rewrite M1, M2, M3. cbn [N.eqb].
      unfold lift at 1. unfold rewrite_out. unfold mbind at 1. unfold mbind at 1, ask at 1. unfold mbind at 1, get at 1. rewrite W.
      unfold mbind at 1, modify at 1, ret at 1. unfold lift, sign.
      destruct (EXT m (List.length (s_log (lgd KVerityOpen t))) Cm Fm Km Im) as [x Hx].
      unfold ret at 1. cbv beta iota. match goal with |- context [mf_format (with_verity m ?a ?b ?c)] => change (mf_format (with_verity m a b c)) with (mf_format m) end. rewrite E1, Hx. unfold rewrite_out. unfold mbind at 1. unfold mbind at 1, ask at 1. unfold mbind at 1, get at 1. rewrite W.
      unfold mbind, modify, ret. eexists. reflexivity. }
    unfold sign_phase. change (mf_format (with_images m0 l)) with (mf_format m0).
    destruct (mf_format m0) eqn:FM; cbn [bformat_eqb].
    - unfold sign_bundle. change (mf_format (with_images m0 l)) with (mf_format m0). rewrite FM. cbn [bformat_eqb]. unfold lift, sign.
      change (mf_format (with_images m0 l)) with (mf_format m0). rewrite FM. cbn [bformat_eqb].
      assert (CIN : exists x, check_internal (e_rauc e) (with_images m0 l) = Ok x).
      { unfold check_internal. rewrite CM. change (mf_format (with_images m0 l)) with (mf_format m0). rewrite FM. cbn [bformat_eqb negb with_images mf_images]. rewrite CB. unfold bind.
        assert (PL : check_plain (with_images m0 l) = true).
        { unfold check_input in CI. rewrite FM in CI. cbn [bformat_eqb] in CI. apply andb_prop in CI as [CI _]. apply andb_prop in CI as [_ CP].
          unfold check_plain in *. cbn [with_images mf_images]. apply forallb_forall. intros i' I. destruct (SI i' I) as (i & I0 & S0).
          rewrite forallb_forall in CP. specialize (CP i I0). apply summed_fields in S0 as (_ & A & _ & _ & _ & _ & _ & _ & B & C). rewrite A, B, C. assumption. }
        unfold check_plain in *. cbn [with_images mf_images mf_crypt_key mf_verity_hash mf_verity_salt mf_verity_size] in *. rewrite PL, CK, VH, VS, VZ. cbn [negb N.eqb]. eexists. reflexivity. }
      destruct CIN as [x ->]. unfold rewrite_out. unfold mbind at 1. unfold mbind at 1, ask at 1. unfold mbind at 1, get at 1. rewrite W.
      unfold mbind, modify, ret. eexists. reflexivity.
    - apply SB; try assumption; try reflexivity; [change (mf_format m0 <> F_PLAIN) | change (mf_format m0 = F_CRYPT -> hex32 (mf_crypt_key m0) = true)]; rewrite FM; discriminate.
    - unfold encrypt_payload. change (mf_crypt_key (with_images m0 l)) with (mf_crypt_key m0). rewrite CK. unfold lift at 1.
      unfold rewrite_out. unfold mbind at 1. unfold mbind at 1, ask at 1. unfold mbind at 1, get at 1. rewrite W.
      unfold mbind at 1, modify at 1, ret at 1. apply SB; try assumption; try reflexivity.
      + change (mf_format m0 <> F_PLAIN). rewrite FM. discriminate.
      + intros _. apply (V _). }
  destruct SG as (t4 & SG).
  unfold create_bundle, create_body. rewrite O, LP, NF. unfold ret at 1. rewrite PP, SG, rm_live by assumption. reflexivity.
Qed.
