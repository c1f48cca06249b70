From Verif Require Import Base BaseLemmas Slot Image Handlers KeyFile Hex Semver SemverSpec SemverProofs Manifest Bundle BundleSpec BundleProofs Install InstallSpec InstallProofs InstallRun InstallRunSpec InstallRunProofs Gates GatesSpec ManifestCheckProofs GatesProofs Signature SignatureSpec SignatureProofs BootSafeProofs EndToEndSpec.
Open Scope list_scope.

Lemma sc_app {B} (a b : list (gevent B)) : state_changes (a ++ b) = state_changes a ++ state_changes b.
Proof. unfold state_changes. now rewrite flat_map_app. Qed.
Lemma sc_run {B} (l : list (event B)) : state_changes (map GRun l) = l.
Proof. induction l as [|x l IH]; [reflexivity|]. cbn. f_equal. exact IH. Qed.
Lemma sc_step {B} b (e : gevent B) : (forall x, e <> GRun x) -> state_changes (step_ev b e) = [].
Proof. intros H. unfold step_ev. destruct b; [|reflexivity]. cbn. destruct e; try reflexivity. now contradiction (H e). Qed.
Lemma sc_firstn {B} (l : list (gevent B)) : forall n, exists k, state_changes (firstn n l) = firstn k (state_changes l).
Proof.
  induction l as [|e l IH]; intros [|n]; try (exists 0; reflexivity).
  destruct (IH n) as [k Hk]. cbn [firstn].
  destruct e as [a| | | |x|]; try (exists k; exact Hk). exists (S k). cbn. f_equal. exact Hk.
Qed.

(** What an attempt does: nothing to the modelled state, or what the default handler does
    with the images of the mounted bundle. *)
Lemma attempt_shape {B} (t : attempt B) :
  let es := snd (attempt_run t) in
  (state_changes es = [] /\ ((forall m, ~ delivers t m) -> es = [] /\ fst (attempt_run t) <> Ok tt)) \/
  exists b b' ev m r, og_check (at_origin t) = Ok b /\
    mount_bundle (at_crypto t) (gc_bundle (at_conf t)) (at_file_mount t) (go_mount (at_out t)) b = Ok (b', ev) /\
    b_manifest b' = Some m /\ gates_open t m /\ mf_handler m = None /\
    hd_error es = Some (GAccess ev) /\
    install (at_backend t) (gc_sys (at_conf t)) (with_bundle (at_inp t) m) (at_world t) = (r, state_changes es).
Proof.
  cbv zeta. unfold attempt_run, do_install.
  destruct (negb (go_mounts (at_out t))); [left; split; [reflexivity|intros _; split; [reflexivity|discriminate]]|].
  destruct (check_bundle _ _ _ _ _ _ _) as [b| |] eqn:CB; [|left; split; [reflexivity|intros _; split; [reflexivity|discriminate]]|left; split; [reflexivity|intros _; split; [reflexivity|discriminate]]].
  destruct (negb (hash_gate _ _ _ _)); [left; split; [reflexivity|intros _; split; [reflexivity|discriminate]]|].
  destruct (negb (crypt_gate b)); [left; split; [reflexivity|intros _; split; [reflexivity|discriminate]]|].
  destruct (mount_bundle _ _ _ _ _) as [[b' ev]| |] eqn:MB; [|left; split; [reflexivity|intros _; split; [reflexivity|discriminate]]|left; split; [reflexivity|intros _; split; [reflexivity|discriminate]]].
  destruct (mount_manifest _ _ _ _ _ _ _ MB) as (m & Em & MR & MM). rewrite Em.
  assert (DL : delivers t m) by (exists b, b', ev; auto).
  assert (SP : forall c, state_changes (@step_ev B c GPre) = []) by (intros; apply sc_step; discriminate).
  destruct (negb (run_step _ _)). { left. split; [cbn; apply SP|]. intros X. now contradiction (X m). }
  assert (SH : forall c, state_changes (@step_ev B c GHook) = []) by (intros; apply sc_step; discriminate).
  assert (SO : forall c, state_changes (@step_ev B c GPost) = []) by (intros; apply sc_step; discriminate).
  destruct (gated _ _ _ _ _ _ _) as [r es] eqn:G. cbn [snd fst].
  assert (E0 : state_changes ((GAccess ev :: step_ev (gc_pre (at_conf t)) GPre) ++ es) = state_changes es).
  { rewrite sc_app. cbn [state_changes flat_map app]. change (flat_map _ (step_ev ?c GPre)) with (state_changes (@step_ev B c GPre)). now rewrite SP. }
  rewrite E0. clear E0.
  unfold gated in G. cbv zeta in G.
  destruct (negb (if mf_install_check m then go_hook (at_out t) else verify_compatible (at_args t) (at_conf t) m)) eqn:V.
  { apply pair_equal_spec in G as [<- <-]. left. split; [apply SH|]. intros X. now contradiction (X m). }
  destruct (negb (check_version_limits (at_args t) (at_conf t) m)) eqn:L.
  { apply pair_equal_spec in G as [<- <-]. left. split; [apply SH|]. intros X. now contradiction (X m). }
  apply negb_false_iff in V. apply negb_false_iff in L.
  assert (GO : gates_open t m).
  { split; [exact MR|]. split.
    - destruct (mf_install_check m); [exact V|]. unfold verify_compatible in V. apply orb_true_iff in V as [V|V]; [now left|].
      right. now apply opt_eqb_spec.
    - unfold check_version_limits in L. destruct (gc_min_version (at_conf t)) as [min|]; [|now left].
      destruct (ia_ignore_version (at_args t)); [auto|]. right; right. destruct (mf_version m) as [v|]; [|discriminate].
      destruct (semver_less_equal min v) as [[]| |] eqn:S; try discriminate. eauto. }
  destruct (mf_handler m) as [h|] eqn:MH.
  { left. split; [|intros X; now contradiction (X m)].
    destruct (go_custom (at_out t)); apply pair_equal_spec in G as [<- <-]; rewrite ?sc_app, SH, ?SO; reflexivity. }
  destruct (default_handler _ _ _ _ _ _ _ _) as [r' es'] eqn:D.
  right. exists b, b', ev, m, r'. repeat (split; [first [assumption|reflexivity]|]).
  unfold install, with_bundle. cbn [in_images in_states in_info in_checks in_artifacts_ok in_out]. rewrite D. f_equal.
  destruct r'; apply pair_equal_spec in G as [_ <-]; rewrite !sc_app, SH, sc_run, ?SO, ?app_nil_r; reflexivity.
Qed.

(** the images of the mounted manifest are the signed ones *)
Lemma find_same (p : image -> bool) l l' : (forall a b, same_but_size a b -> p a = p b) ->
  Forall2 same_but_size l l' ->
  match find p l', find p l with Some i', Some i => same_but_size i i' | None, None => True | _, _ => False end.
Proof.
  intros Hp F. induction F as [|a b l l' H F IH]; [exact Logic.I|]. cbn [find]. rewrite <- (Hp a b H).
  destruct (p a); [exact H|exact IH].
Qed.
Lemma same_fields a b : same_but_size a b -> im_class b = im_class a /\ im_variant b = im_variant a /\ im_digest b = im_digest a.
Proof. intros [-> _]. auto. Qed.
Lemma image_for_same v l l' c i' : Forall2 same_but_size l l' -> image_for v l' c = Some i' ->
  exists i, image_for v l c = Some i /\ same_but_size i i'.
Proof.
  intros F. unfold image_for.
  pose proof (find_same (fun i => String.eqb (im_class i) c && has_variant v i) l l') as H1.
  pose proof (find_same (fun i => String.eqb (im_class i) c && no_variant i) l l') as H2.
  specialize (H1 ltac:(intros a b S; apply same_fields in S as (E1 & E2 & _); unfold has_variant; now rewrite E1, E2) F).
  specialize (H2 ltac:(intros a b S; apply same_fields in S as (E1 & E2 & _); unfold no_variant; now rewrite E1, E2) F).
  destruct (find (fun i => String.eqb (im_class i) c && has_variant v i) l'), (find (fun i => String.eqb (im_class i) c && has_variant v i) l); try contradiction.
  - intros E. apply Some_inj in E. subst. eauto.
  - intros E. rewrite E in H2. destruct (find _ l); [eauto|contradiction].
Qed.

(** its format is allowed *)
Lemma checked_format cr cf pr remote f excl access b : check_bundle cr cf pr remote f excl access = Ok b -> format_allowed cf (b_manifest b) = true.
Proof.
  unfold check_bundle. intros H. destruct (bp_verify pr && negb (bc_keyring cf)); [discriminate|].
  apply bind_ok in H as ([size raw] & _ & H). apply bind_ok in H as (det & _ & H). destruct (det && remote); [discriminate|].
  apply bind_ok in H as ([enc sig] & _ & H). apply bind_ok in H as ([b0 mb] & _ & H). apply bind_ok in H as (m & _ & H).
  destruct (format_allowed cf m) eqn:F; [|discriminate]. cbn [negb] in H. apply Ok_inj in H. subst b. exact F.
Qed.

(** a mounted bundle is vouched for *)
Lemma mounted_vouched {B} V P (t : attempt B) b b' e m : honest (vf_ssl V) P -> at_crypto t = vf_crypto V -> steady t ->
  og_check (at_origin t) = Ok b ->
  mount_bundle (at_crypto t) (gc_bundle (at_conf t)) (at_file_mount t) (go_mount (at_out t)) b = Ok (b', e) ->
  b_manifest b' = Some m ->
  exists m0, vouched V P t m0 /\ reads_signed m0 e /\ m = with_images m0 (mf_images m) /\ Forall2 same_but_size (mf_images m0) (mf_images m) /\
    bc_allowed (gc_bundle (at_conf t)) (mf_format m0) = true.
Proof.
  intros HH EC ST CB MB EM. pose proof (checked_format _ _ _ _ _ _ _ _ CB) as FA. cbn [at_origin og_conf] in FA.
  pose proof CB as CB'. unfold og_check in CB'. cbn [at_origin og_crypto og_conf og_params og_remote og_file og_excl og_access] in CB'. rewrite EC in CB'.
  destruct (check_signed_ok _ P _ _ _ _ _ _ _ _ _ _ _ HH CB' eq_refl) as (size & raw & sig & c & x & O & D & PS & K).
  pose proof (check_bundle_inv _ _ CB) as I.
  destruct (check_bundle_enc _ _ CB) as (size' & raw' & det & E1 & E2 & E3 & E4 & E5 & E6).
  assert (E1' : Ok (size', raw') = Ok (size, raw)) by (rewrite <- E1; rewrite <- O; reflexivity). apply Ok_inj in E1'. injection E1' as -> ->.
  assert (ED : ends_in V t size c) by (exists raw, sig; auto).
  unfold mount_bundle in MB.
  destruct (b_mounted b); [discriminate|]. destruct (negb (b_sig_verified b || b_disabled b)); [discriminate|]. destruct (negb (go_mount (at_out t))); [discriminate|].
  destruct (b_manifest b) as [m0|] eqn:EB; cbn [format_allowed] in FA.
  - (* manifest in the signature *)
    assert (DT : det = false) by (destruct (E6 m0 eq_refl); assumption). subst det.
    assert (SG : b_sig b = sig).
    { cbn [at_origin og_crypto] in E5. rewrite EC in E5. cbn [vf_crypto sig_crypto cm_enveloped cm_decrypt] in E5. destruct (is_enveloped (vf_ssl V) raw); congruence. }
    assert (KK : exists mb, cs_content c = Some mb /\ signed_by (vf_ssl V) P (vf_keys V) c x mb /\ vf_load V mb = Ok m0).
    { destruct K as [(_ & CN & _)|(mb & mf & CN & SB & LD & EQ)].
      - exfalso. destruct (E6 m0 eq_refl) as (_ & VV). destruct (VV eq_refl) as (mb & V1 & _).
        cbn [at_origin og_crypto] in V1. rewrite EC in V1. cbn [vf_crypto sig_crypto cm_verify] in V1. rewrite SG in V1.
        apply verify_sig_iff in V1 as (c' & s' & x' & t' & _ & PS' & CN' & _). congruence.
      - exists mb. split; [exact CN|]. split; [exact SB|]. congruence. }
    destruct KK as (mb & CN & SB & LD).
    assert (VO : forall mm, m0 = mm -> mf_format mm <> F_PLAIN -> vouched V P t mm).
    { intros mm <- NF. exists size, c. split; [|rewrite CN; auto]. split; [exact ED|]. exists x. right. exists mb. auto. }
    destruct (mf_format m0) eqn:F; [discriminate| |].
    + apply bind_ok in MB as (m1 & Hm & MB). apply c33_external_ok in Hm as (EQ & FF & _).
      destruct (mf_verity_hash m1) as [root|] eqn:R; [|discriminate]. destruct (mf_verity_salt m1) as [salt|] eqn:SA; [|discriminate].
      apply Ok_inj in MB. injection MB as <- <-. cbn in EM. injection EM as <-.
      exists m0. split; [apply VO; [reflexivity|congruence]|]. split; [|split; [assumption|split; [assumption|]]]; [|now rewrite F]. cbn. rewrite EQ in R, SA. auto.
    + apply bind_ok in MB as (m1 & Hm & MB). apply c33_external_ok in Hm as (EQ & FF & _).
      destruct (mf_verity_hash m1) as [root|] eqn:R; [|discriminate]. destruct (mf_verity_salt m1) as [salt|] eqn:SA; [|discriminate]. destruct (mf_crypt_key m1) as [key|] eqn:CK; [|discriminate].
      apply Ok_inj in MB. injection MB as <- <-. cbn in EM. injection EM as <-.
      exists m0. split; [apply VO; [reflexivity|congruence]|]. split; [|split; [assumption|split; [assumption|]]]; [|now rewrite F]. cbn. rewrite EQ in R, SA, CK. auto.
  - destruct (negb (b_payload_verified b || b_disabled b)); [discriminate|]. apply bind_ok in MB as (m0 & H0 & MB). apply bind_ok in MB as (m1 & Hm & MB).
    destruct (bformat_eqb (mf_format m1) F_PLAIN); [|discriminate]. cbn [negb] in MB. apply c33_plain_ok in Hm as (EQ & FF & _ & _ & F & _).
    apply Ok_inj in MB. injection MB as <- <-. cbn in EM. injection EM as <-.
    assert (KK : at_remote t = false /\ cs_content c = None /\ signed_by (vf_ssl V) P (vf_keys V) c x (firstn size (at_file t))).
    { destruct K as [K|(mb & mf & _ & _ & _ & EQ')]; [exact K|discriminate]. }
    destruct KK as (RM & CN & SB).
    assert (EX : at_excl t = true).
    { destruct (bi_kind _ _ I) as [(_ & SP & _)|(m2 & l1 & X & _)]; [|congruence].
      destruct SP as (sg & _ & _ & SP). destruct (SP eq_refl) as (_ & [X|X] & _); [discriminate|exact X]. }
    rewrite (ST EX), E3, EC in H0.
    exists m0. split; [|split; [exact F|split; [assumption|split; [assumption|now rewrite F]]]].
    exists size, c. split; [|rewrite CN; auto]. split; [exact ED|]. exists x. left. auto.
Qed.

Lemma gates_with {B} (t : attempt B) m l : gates_open t (with_images m l) <-> gates_open t m.
Proof. reflexivity. Qed.

(** the writes of an installation *)
Lemma plans_contents {B} per_slot out ps : forall k (w : world B) d c,
  In (EWrite d c) (snd (run_plans per_slot out k w ps)) ->
  exists p s h, In p ps /\ pl_target p = TSlot s h /\ sl_device s = d /\ (c = Torn \/ c = Whole (im_digest (pl_image p))).
Proof.
  induction ps as [|p r IH]; cbn [run_plans]; intros k w d c He; [destruct He|].
  assert (Hp : In (EWrite d c) (snd (handle_plan per_slot (out k) w p)) ->
     exists s h, pl_target p = TSlot s h /\ sl_device s = d /\ (c = Torn \/ c = Whole (im_digest (pl_image p)))).
  { clear He. unfold handle_plan. destruct (pl_target p) as [s h|rp] eqn:T; [|cbn; intros [X|[]]; discriminate].
    intros He. exists s, h. split; [reflexivity|]. unfold handle_slot_plan in He.
    destruct (po_mounted (out k)); [destruct He|].
    destruct (negb (sl_install_same s) && _ && _); cbn [snd] in He.
    { destruct (po_save_done (out k)); cbn in He; intuition discriminate. }
    destruct (negb per_slot && negb (po_save_pending (out k))).
    { cbn in He; intuition discriminate. }
    destruct per_slot, (po_handler (out k)), (po_save_done (out k)); cbn in He;
      repeat match goal with H : _ \/ _ |- _ => destruct H end; try discriminate; try contradiction;
      match goal with H : EWrite _ _ = EWrite _ _ |- _ => injection H as <- <- end; auto. }
  destruct (handle_plan per_slot (out k) w p) as [ok es] eqn:E. cbn [snd] in Hp.
  destruct ok.
  - specialize (IH (S k) (replay w es) d c).
    destruct (run_plans per_slot out (S k) (replay w es) r) as [ok' es']. cbn [snd] in *.
    apply in_app_or in He as [He|He].
    + destruct (Hp He) as (s & h & X). exists p, s, h. split; [now left|exact X].
    + destruct (IH He) as (p' & s & h & X1 & X). exists p', s, h. split; [now right|exact X].
  - destruct (Hp He) as (s & h & X). exists p, s, h. split; [now left|exact X].
Qed.

Lemma install_contents {B} (bk : backend B) cf inp w d c :
  unique_names (cf_slots cf) -> wf_parents (cf_slots cf) ->
  In (EWrite d c) (snd (install bk cf inp w)) ->
  exists ps s i, planned cf inp = Ok ps /\ In s (written ps) /\ In s (cf_slots cf) /\ sl_device s = d /\ sl_readonly s = false /\
    image_for (cf_variant cf) (in_images inp) (sl_class s) = Some i /\ (c = Torn \/ c = Whole (im_digest i)).
Proof.
  intros HU HW He. destruct (install_cases B bk cf inp w) as [(r & E & _)|(ps & bm & (PL & _ & _) & E)]; rewrite E in He; [destruct He|].
  assert (HP : exists w1 : world B, In (EWrite d c) (snd (run_plans (cf_per_slot cf) (ro_plans (in_out inp)) 0 w1 ps))).
  { unfold run_checked in He.
    assert (X : forall tag sts o, (tag = EBad \/ tag = EAct) -> ~ In (EWrite d c) (snd (@boot_events B tag sts o))).
    { intros tag sts o T H. apply boot_events_in in H as (b & _ & H). destruct T as [-> | ->]; discriminate. }
    destruct (match bm with None => (true, []) | Some s => boot_events EBad (bk_bad bk (w_boot w) s) (ro_bad (in_out inp)) end) as [ok1 es1] eqn:E1.
    assert (N1 : ~ In (EWrite d c) es1).
    { destruct bm as [s|]; [|injection E1 as <- <-; intros []]. specialize (X EBad (bk_bad bk (w_boot w) s) (ro_bad (in_out inp)) (or_introl eq_refl)). rewrite E1 in X. exact X. }
    destruct (negb ok1); [contradiction|].
    exists (replay w es1). destruct (run_plans (cf_per_slot cf) (ro_plans (in_out inp)) 0 (replay w es1) ps) as [ok2 es2]. cbn [snd] in *.
    assert (Y : forall l, ~ In (EWrite d c) l -> In (EWrite d c) (es1 ++ es2 ++ l) -> In (EWrite d c) es2).
    { intros l NL H. apply in_app_or in H as [H|H]; [contradiction|]. apply in_app_or in H as [H|H]; [exact H|contradiction]. }
    assert (Y0 : In (EWrite d c) (es1 ++ es2) -> In (EWrite d c) es2).
    { intros H. apply in_app_or in H as [H|H]; [contradiction|exact H]. }
    destruct (negb ok2); [exact (Y0 He)|]. destruct (negb (ro_prune (in_out inp))); [exact (Y0 He)|].
    destruct bm as [s|]; [|exact (Y0 He)]. destruct (cf_activate cf); [|exact (Y0 He)].
    destruct (boot_events EAct _ _) as [ok3 es3] eqn:E3.
    assert (N3 : ~ In (EWrite d c) es3).
    { intros H. eapply (X EAct); [now right|]. rewrite E3. exact H. }
    destruct ok3; cbn [snd] in He.
    - apply (Y (es3 ++ save_ev (ro_act_save (in_out inp)))); [|exact He]. intros H. apply in_app_or in H as [H|H]; [contradiction|].
      unfold save_ev in H. destruct (ro_act_save _); [destruct H as [H|[]]; discriminate|destruct H].
    - exact (Y es3 N3 He). }
  destruct HP as (w1 & HP). apply plans_contents in HP as (p & s & h & Hin & T & D & C).
  destruct (c03_ok _ _ _ _ _ _ PL) as (sp & ap & -> & _).
  assert (WR : In s (written (sp ++ ap))).
  { unfold written. apply in_flat_map. exists p. split; [exact Hin|]. rewrite T. now left. }
  destruct (make_plans_ok _ _ _ _ _ _ PL) as (sp' & ap' & EQ & F1 & F2).
  rewrite EQ in Hin. apply in_app_or in Hin as [Hin|Hin].
  - destruct (Forall2_in_r _ _ _ _ F1 Hin) as (cl & Hc & HR). destruct (plan_class_ok _ _ _ _ _ HR) as (i & s' & h' & -> & H1 & H2 & H3 & H4).
    cbn in T, C. injection T as -> ->. destruct (target_group_spec _ _ _ _ _ _ HU HW H2) as (IN & CL & _).
    exists (sp ++ ap), s, i. rewrite CL. auto 10.
  - destruct (Forall2_in_r _ _ _ _ F2 Hin) as (i & Hi & HR). unfold plan_artifact in HR.
    destruct (existsb _ _); [|discriminate]. apply Ok_inj in HR. subst. discriminate.
Qed.

Lemma in_sc {B} (l : list (gevent B)) x : In (GRun x) l <-> In x (state_changes l).
Proof.
  unfold state_changes. rewrite in_flat_map. split.
  - intros H. exists (GRun x). split; [exact H|now left].
  - intros (e & H1 & H2). destruct e; try destruct H2; [subst; exact H1|contradiction].
Qed.

Lemma c76_write_ok : forall B V P (t : attempt B) realdev bootslot d c,
  let slots := cf_slots (gc_sys (at_conf t)) in
  let st := in_states (at_inp t) in
  honest (vf_ssl V) P -> at_crypto t = vf_crypto V -> steady t ->
  unique_names slots -> wf_parents slots ->
  determine_slot_states realdev (Some bootslot) slots = Ok st ->
  In (GRun (EWrite d c)) (snd (attempt_run t)) ->
  exists m e s i,
    vouched V P t m /\ gates_open t m /\ bc_allowed (gc_bundle (at_conf t)) (mf_format m) = true /\ mf_handler m = None /\
    hd_error (snd (attempt_run t)) = Some (GAccess e) /\ reads_signed m e /\
    In s slots /\ sl_device s = d /\ sl_readonly s = false /\
    (forall booted, In booted slots -> st (sl_name booted) = ST_BOOTED -> sl_parent booted = None ->
       sl_name s <> sl_name booted /\ sl_parent s <> Some (sl_name booted) /\ st (sl_name s) = ST_INACTIVE) /\
    image_for (cf_variant (gc_sys (at_conf t))) (mf_images m) (sl_class s) = Some i /\
    (c = Torn \/ c = Whole (im_digest i)).
Proof.
  intros B V P t realdev bootslot d c slots st HH EC ST HU HW HS HI. apply in_sc in HI.
  destruct (attempt_shape t) as [[E _]|(b & b' & ev & m & r & CB & MB & EM & GO & MH & HD & RI)]; [rewrite E in HI; destruct HI|].
  destruct (mounted_vouched V P t b b' ev m HH EC ST CB MB EM) as (m0 & VO & RS & EQ & FF & FM).
  assert (HI' : In (EWrite d c) (snd (install (at_backend t) (gc_sys (at_conf t)) (with_bundle (at_inp t) m) (at_world t)))) by (rewrite RI; exact HI).
  destruct (install_contents _ _ _ _ _ _ HU HW HI') as (ps & s & i & PL & WR & IN & D & RO & IM & C).
  cbn [with_bundle in_images] in IM. destruct (image_for_same _ _ _ _ _ FF IM) as (i0 & IM0 & SB).
  exists m0, ev, s, i0. split; [exact VO|]. split; [rewrite EQ in GO; exact GO|]. split; [exact FM|]. split; [rewrite EQ in MH; exact MH|].
  split; [exact HD|]. split; [exact RS|]. split; [exact IN|]. split; [exact D|]. split; [exact RO|]. split.
  - intros booted B1 B2 B3. eapply c01_ok; eauto.
  - split; [exact IM0|]. apply same_fields in SB as (_ & _ & <-). exact C.
Qed.

(** without a proper signature nothing happens at all *)
Lemma c76_unsigned_ok : forall B V P (t : attempt B), honest (vf_ssl V) P -> at_crypto t = vf_crypto V ->
  (forall size c, ~ bundle_signed V P t size c) -> snd (attempt_run t) = [] /\ fst (attempt_run t) <> Ok tt.
Proof.
  intros B V P t HH EC NS.
  assert (NB : forall b, og_check (at_origin t) <> Ok b).
  { intros b CB. unfold og_check in CB. cbn [at_origin og_crypto og_conf og_params og_remote og_file og_excl og_access] in CB. rewrite EC in CB.
    destruct (check_signed_ok _ P _ _ _ _ _ _ _ _ _ _ _ HH CB eq_refl) as (size & raw & sig & c & x & O & D & PS & K).
    apply (NS size c). split; [exists raw, sig; auto|]. exists x. destruct K as [(? & ? & ?)|(mb & mf & ? & ? & _)]; [left; auto|right; eauto]. }
  destruct (attempt_shape t) as [[_ H]|(b & _ & _ & _ & _ & CB & _)]; [|now apply NB in CB].
  apply H. intros m (b & _ & _ & CB & _). now apply NB in CB.
Qed.

(** attempts are installations *)
Lemma attempt_life {B} (t : attempt B) n : exists k inp,
  state_changes (firstn n (snd (attempt_run t))) = firstn k (snd (install (at_backend t) (gc_sys (at_conf t)) inp (at_world t))) /\
  (state_changes (firstn n (snd (attempt_run t))) = [] \/ exists m, delivers t m /\ inp = with_bundle (at_inp t) m).
Proof.
  destruct (sc_firstn (snd (attempt_run t)) n) as [k E]. rewrite E.
  destruct (attempt_shape t) as [[Z _]|(b & b' & ev & m & r & CB & MB & EM & GO & MH & HD & RI)].
  - rewrite Z, firstn_nil. exists 0, (at_inp t). split; [reflexivity|now left].
  - exists k, (with_bundle (at_inp t) m). rewrite RI. split; [reflexivity|]. right. exists m. split; [exists b, b', ev; auto|reflexivity].
Qed.
Lemma attempt_life_all {B} (t : attempt B) : state_changes (snd (attempt_run t)) = [] \/ exists m, delivers t m /\
  state_changes (snd (attempt_run t)) = snd (install (at_backend t) (gc_sys (at_conf t)) (with_bundle (at_inp t) m) (at_world t)).
Proof.
  destruct (attempt_shape t) as [[Z _]|(b & b' & ev & m & r & CB & MB & EM & GO & MH & HD & RI)]; [now left|].
  right. exists m. split; [exists b, b', ev; auto|]. now rewrite RI.
Qed.

Lemma c76_life_ok : forall B (bk : backend B) cf (A : attempt B -> Prop) w0 w,
  (forall t, A t -> at_backend t = bk /\ gc_sys (at_conf t) = cf) -> history A w0 w -> life bk cf w0 w.
Proof.
  intros B bk cf A w0 w HA H. induction H as [w|w t H IH At|w t n H IH At|w w1 H IH].
  - apply life_start.
  - destruct (HA t At) as [<- <-]. destruct (attempt_life_all t) as [E|(m & _ & E)]; rewrite E; [exact IH|]. now apply life_install.
  - destruct (HA t At) as [<- <-]. destruct (attempt_life t n) as (k & inp & E & _). rewrite E. now apply life_crash.
  - now apply life_restart.
Qed.

Lemma c76_proper_ok : forall B (bk : backend B) cf cand (A : attempt B -> Prop) w0 w,
  (forall t, A t -> at_backend t = bk /\ gc_sys (at_conf t) = cf /\
     forall m, delivers t m -> proper cand cf (with_bundle (at_inp t) m) (at_world t)) ->
  history A w0 w -> proper_life cand bk cf w0 w.
Proof.
  intros B bk cf cand A w0 w HA H. induction H as [w|w t H IH At|w t n H IH At|w w1 H IH].
  - apply plife_start.
  - destruct (HA t At) as (<- & <- & PR). destruct (attempt_life_all t) as [E|(m & DL & E)]; rewrite E; [exact IH|].
    apply plife_install; [exact IH|]. now apply PR.
  - destruct (HA t At) as (<- & <- & PR). destruct (attempt_life t n) as (k & inp & E & [Z|(m & DL & ->)]).
    + rewrite Z. cbn [replay fold_left]. now apply plife_restart.
    + rewrite E. apply plife_crash; [exact IH|]. now apply PR.
  - now apply plife_restart.
Qed.

(** C04 and C46 for histories *)
Lemma c76_status_ok : forall B (bk : backend B) cf V (A : attempt B -> Prop) w0 w,
  unique_names (cf_slots cf) -> distinct_devices (cf_slots cf) -> wf_parents (cf_slots cf) -> cf_per_slot cf = false ->
  (forall t, A t -> on_system V bk cf t) ->
  status_true (cf_slots cf) w0 -> history A w0 w -> status_true (cf_slots cf) w.
Proof.
  intros B bk cf V A w0 w H1 H2 H3 H4 HA HS H. apply (c04_ok B bk cf w0 w); auto. apply (c76_life_ok B bk cf A); [|exact H].
  intros t At. destruct (HA t At) as (_ & ? & ? & _). auto.
Qed.

Lemma c76_provenance_ok : forall B (bk : backend B) cf V P (A : attempt B -> Prop) w0 w dev d,
  unique_names (cf_slots cf) -> wf_parents (cf_slots cf) -> honest (vf_ssl V) P ->
  (forall t, A t -> on_system V bk cf t) ->
  history A w0 w -> w_dev w dev = Whole d ->
  w_dev w0 dev = Whole d \/
  exists t m s i, A t /\ vouched V P t m /\ gates_open t m /\ bc_allowed (gc_bundle (at_conf t)) (mf_format m) = true /\
    In s (cf_slots cf) /\ sl_device s = dev /\ sl_readonly s = false /\
    image_for (cf_variant cf) (mf_images m) (sl_class s) = Some i /\ im_digest i = d.
Proof.
  intros B bk cf V P A w0 w dev d HU HW HH HA H. 
  assert (LAST : forall es (w1 : world B), w_dev (replay w1 es) dev = Whole d -> w_dev w1 dev = Whole d \/ In (EWrite dev (Whole d)) es).
  { induction es as [|e es IH]; intros w1 E; [now left|].
    change (replay w1 (e :: es)) with (replay (apply w1 e) es) in E. apply IH in E as [E|E]; [|right; now right].
    destruct e; cbn in E; try (now left). unfold upd in E. destruct (String.eqb_spec d0 dev) as [->|]; [|now left].
    right. left. now rewrite E. }
  assert (STEP : forall t n, A t -> w_dev (replay (at_world t) (state_changes (firstn n (snd (attempt_run t))))) dev = Whole d ->
    w_dev (at_world t) dev = Whole d \/ exists t m s i, A t /\ vouched V P t m /\ gates_open t m /\ bc_allowed (gc_bundle (at_conf t)) (mf_format m) = true /\
      In s (cf_slots cf) /\ sl_device s = dev /\ sl_readonly s = false /\ image_for (cf_variant cf) (mf_images m) (sl_class s) = Some i /\ im_digest i = d).
  { intros t n At E. apply LAST in E as [E|E]; [now left|]. right. apply in_sc in E.
    assert (E' : In (GRun (EWrite dev (Whole d))) (snd (attempt_run t))) by (rewrite <- (firstn_skipn n); apply in_or_app; now left).
    apply in_sc in E'. destruct (HA t At) as (EC & EB & EF & ST).
    destruct (attempt_shape t) as [[Z _]|(b & b' & ev & m & r & CB & MB & EM & GO & MH & HD & RI)]; [rewrite Z in E'; destruct E'|].
    destruct (mounted_vouched V P t b b' ev m HH EC ST CB MB EM) as (m0 & VO & RS & EQ & FF & FM).
    rewrite EF, EB in RI.
    assert (HI' : In (EWrite dev (Whole d)) (snd (install bk cf (with_bundle (at_inp t) m) (at_world t)))) by (rewrite RI; exact E').
    destruct (install_contents _ _ _ _ _ _ HU HW HI') as (ps & s & i & PL & WR & IN & D & RO & IM & [C|C]); [discriminate|].
    cbn [with_bundle in_images] in IM. destruct (image_for_same _ _ _ _ _ FF IM) as (i0 & IM0 & SB).
    exists t, m0, s, i0. split; [exact At|]. split; [exact VO|]. split; [rewrite EQ in GO; exact GO|]. split; [exact FM|]. split; [exact IN|]. split; [exact D|]. split; [exact RO|].
    split; [exact IM0|]. apply same_fields in SB as (_ & _ & <-). congruence. }
  induction H as [w|w t H IH At|w t n H IH At|w w1 H IH]; intros E.
  - now left.
  - assert (X := STEP t (List.length (snd (attempt_run t))) At). rewrite firstn_all in X. apply X in E as [E|E]; [now apply IH|now right].
  - cbn [restart w_dev] in E. apply STEP in E as [E|E]; [now apply IH|now right|exact At].
  - apply IH. exact E.
Qed.

Lemma c76_boot_ok : forall B (bk : backend B) cf V (A : attempt B -> Prop) (good : B -> Prop) cand bt w0 w,
  boot_laws (cf_slots cf) good cand bt bk ->
  unique_names (cf_slots cf) -> distinct_devices (cf_slots cf) -> wf_parents (cf_slots cf) ->
  unique_bootnames (cf_slots cf) -> cf_per_slot cf = false ->
  (forall t, A t -> on_system V bk cf t /\ forall m, delivers t m -> proper cand cf (with_bundle (at_inp t) m) (at_world t)) ->
  status_true (cf_slots cf) w0 -> boot_safe (cf_slots cf) good cand bt w0 ->
  history A w0 w ->
  (exists n, bt (w_boot w) n) /\ forall n, bt (w_boot w) n -> intact (cf_slots cf) w n.
Proof.
  intros B bk cf V A good cand bt w0 w BL H1 H2 H3 H4 H5 HA HS HB H. eapply c46_ok; eauto.
  apply (c76_proper_ok B bk cf cand A); [|exact H]. intros t At. destruct (HA t At) as ((_ & ? & ? & _) & ?). auto.
Qed.
