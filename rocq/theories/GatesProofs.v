From Verif Require Import Base BaseLemmas Slot Image Handlers KeyFile Hex Semver SemverSpec SemverProofs Manifest Bundle BundleSpec BundleProofs Install InstallRun Gates GatesSpec ManifestCheckProofs.

(** what check_bundle says about the encryption *)
Lemma check_bundle_enc o b : og_check o = Ok b ->
  exists size raw detached, og_open o = Ok (size, raw) /\ cm_detached (og_crypto o) raw = Some detached /\
    b_size b = size /\ (b_was_encrypted b = true -> cm_enveloped (og_crypto o) raw = true) /\
    (if cm_enveloped (og_crypto o) raw then cm_decrypt (og_crypto o) raw = Some (b_sig b) else b_sig b = raw) /\
    (forall m, b_manifest b = Some m -> detached = false /\
       (bp_verify (og_params o) = true -> exists mb, cm_verify (og_crypto o) (b_sig b) = Some mb /\ cm_load (og_crypto o) mb = Ok m)).
Proof.
  unfold og_check, check_bundle. intros H.
  destruct (bp_verify (og_params o) && negb (bc_keyring (og_conf o))) eqn:K; [discriminate|].
  change (if og_remote o then _ else _) with (og_open o) in H.
  apply bind_ok in H as ([size raw] & Ho & H). apply bind_ok in H as (det & Hd & H).
  destruct (cm_detached (og_crypto o) raw) as [det'|] eqn:Ed; [|discriminate]. apply Ok_inj in Hd. subst det'.
  destruct (det && og_remote o); [discriminate|].
  apply bind_ok in H as ([enc sig] & He & H).
  apply bind_ok in H as ([b0 mb] & Hb & H). apply bind_ok in H as (m & Hm & H).
  destruct (format_allowed (og_conf o) m); [|discriminate]. cbn [negb] in H. apply Ok_inj in H. subst b. cbn.
  exists size, raw, det.
  assert (E : (enc = true -> cm_enveloped (og_crypto o) raw = true) /\
     (if cm_enveloped (og_crypto o) raw then cm_decrypt (og_crypto o) raw = Some sig else sig = raw)).
  { destruct (cm_enveloped (og_crypto o) raw).
    - split; [reflexivity|]. destruct (bc_key (og_conf o)); [|discriminate]. destruct (cm_decrypt _ _); [|discriminate].
      apply Ok_inj in He. congruence.
    - apply Ok_inj in He. split; [congruence|congruence]. }
  assert (X : b_size b0 = size /\ b_was_encrypted b0 = enc /\ b_sig b0 = sig /\
    (det = true -> mb = None) /\
    (bp_verify (og_params o) = true -> forall mb', mb = Some mb' -> cm_verify (og_crypto o) sig = Some mb')).
  { destruct (bp_verify (og_params o)), det.
    - destruct (_ || _); [|discriminate]. destruct (cm_verify_fd _ _ _); [|discriminate]. apply Ok_inj in Hb.
      injection Hb as <- <-. cbn. repeat split; auto; congruence.
    - destruct (cm_verify _ _) eqn:V; [|discriminate]. apply Ok_inj in Hb. injection Hb as <- <-. cbn. repeat split; auto; congruence.
    - apply Ok_inj in Hb. injection Hb as <- <-. cbn. repeat split; auto; congruence.
    - destruct (cm_unverified _ _); [|discriminate]. apply Ok_inj in Hb. injection Hb as <- <-. cbn. repeat split; auto; congruence. }
  destruct X as (X1 & X2 & X3 & X4 & X5). rewrite X1, X2, X3. destruct E as [E1 E2].
  repeat (split; [first [assumption|reflexivity]|]).
  intros m' ->. destruct mb as [mb|]; [|discriminate].
  apply bind_ok in Hm as (m1 & Hl & Hm). destruct (bformat_eqb _ _); [discriminate|]. apply Ok_inj in Hm. injection Hm as ->.
  split.
  - destruct det; [|reflexivity]. discriminate (X4 eq_refl).
  - intros V. exists mb. auto.
Qed.

(** what mounting does with the manifest *)
Lemma mount_manifest cr cf f ok b b' e : mount_bundle cr cf f ok b = Ok (b', e) ->
  exists m, b_manifest b' = Some m /\
    (forall v, mf_min_rauc m = Some v -> semver_less_equal v (bc_rauc cf) = Ok true) /\
    match b_manifest b with
    | Some m0 => mf_format m0 <> F_PLAIN /\ exists l, m = with_images m0 l
    | None => exists m0 l, cm_inner cr (firstn (b_size b) f) = Ok m0 /\ mf_format m0 = F_PLAIN /\ m = with_images m0 l
    end.
Proof.
  intros H. unfold mount_bundle in H.
  destruct (b_mounted b); [discriminate|]. destruct (negb (b_sig_verified b || b_disabled b)); [discriminate|]. destruct (negb ok); [discriminate|].
  assert (MR : forall m, common_safe (bc_rauc cf) m -> forall v, mf_min_rauc m = Some v -> semver_less_equal v (bc_rauc cf) = Ok true).
  { intros m [C _] v V. rewrite V in C. now apply c15_min_rauc_ok in C. }
  destruct (b_manifest b) as [m0|].
  - destruct (mf_format m0) eqn:F; [discriminate| |].
    + apply bind_ok in H as (m & Hm & H). apply c33_external_ok in Hm as (E & _ & C & _).
      destruct (mf_verity_hash m); [|discriminate]. destruct (mf_verity_salt m); [|discriminate].
      apply Ok_inj in H. injection H as <- <-. exists m. cbn. split; [reflexivity|]. rewrite E. cbn. split; [exact (MR _ C)|].
      split; [congruence|eauto].
    + apply bind_ok in H as (m & Hm & H). apply c33_external_ok in Hm as (E & _ & C & _).
      destruct (mf_verity_hash m); [|discriminate]. destruct (mf_verity_salt m); [|discriminate]. destruct (mf_crypt_key m); [|discriminate].
      apply Ok_inj in H. injection H as <- <-. exists m. cbn. split; [reflexivity|]. rewrite E. cbn. split; [exact (MR _ C)|].
      split; [congruence|eauto].
  - destruct (negb (b_payload_verified b || b_disabled b)); [discriminate|]. apply bind_ok in H as (m0 & H0 & H). apply bind_ok in H as (m & Hm & H).
    destruct (bformat_eqb (mf_format m) F_PLAIN); [|discriminate]. cbn [negb] in H. apply c33_plain_ok in Hm as (E & _ & C & _ & F & _). apply Ok_inj in H. injection H as <- <-.
    exists m. cbn. split; [reflexivity|]. rewrite E. cbn. split; [exact (MR _ C)|]. eauto.
Qed.

Lemma gated_open {B} bk cf a go inp m (w : world B) e :
  In e (snd (gated bk cf a go inp m w)) -> changes e ->
  (if mf_install_check m then go_hook go = true
   else ia_ignore_compatible a = true \/ gc_compatible cf = mf_compatible m) /\
  (gc_min_version cf = None \/ ia_ignore_version a = true \/
   exists min v, gc_min_version cf = Some min /\ mf_version m = Some v /\ semver_less_equal min v = Ok true).
Proof.
  intros H C. unfold gated in H.
  assert (HH : ~ In e (step_ev (mf_install_check m) GHook)).
  { unfold step_ev. destruct (mf_install_check m); cbn; [|tauto]. intros [<-|[]]. exact C. }
  destruct (negb (if mf_install_check m then go_hook go else verify_compatible a cf m)) eqn:V; [cbn in H; tauto|].
  apply negb_false_iff in V.
  destruct (negb (check_version_limits a cf m)) eqn:L; [cbn in H; tauto|]. apply negb_false_iff in L. split.
  - destruct (mf_install_check m); [exact V|]. unfold verify_compatible in V. apply orb_true_iff in V as [V|V]; [now left|].
    right. now apply opt_eqb_spec.
  - unfold check_version_limits in L. destruct (gc_min_version cf) as [min|]; [|now left].
    destruct (ia_ignore_version a); [auto|]. right; right. destruct (mf_version m) as [v|]; [|discriminate].
    destruct (semver_less_equal min v) as [[]| |] eqn:S; try discriminate. eauto.
Qed.

Lemma c43_ok : forall B (t : attempt B) e, In e (snd (attempt_run t)) -> changes e ->
  exists m, from_bundle t m /\ gates_open t m.
Proof.
  intros B t e H C. unfold attempt_run, do_install in H.
  destruct (negb (go_mounts (at_out t))); [destruct H|].
  destruct (check_bundle _ _ _ _ _ _ _) as [b| |] eqn:CB; [|destruct H|destruct H].
  destruct (hash_gate _ _ _ _) eqn:HG; [|destruct H]. cbn [negb] in H.
  destruct (crypt_gate b) eqn:CG; [|destruct H]. cbn [negb] in H.
  destruct (mount_bundle _ _ _ _ _) as [[b' ev]| |] eqn:MB; [|destruct H|destruct H].
  change (og_check (at_origin t) = Ok b) in CB.
  pose proof (check_bundle_inv _ _ CB) as I. destruct (check_bundle_enc _ _ CB) as (size & raw & det & E1 & E2 & E3 & E4 & E5 & E6).
  destruct (mount_manifest _ _ _ _ _ _ _ MB) as (m & Em & MR & MM). rewrite Em in H.
  assert (G : In e (snd (gated (at_backend t) (at_conf t) (at_args t) (at_out t) (at_inp t) m (at_world t)))).
  { assert (NP : ~ In e (GAccess ev :: step_ev (gc_pre (at_conf t)) GPre)).
    { unfold step_ev. destruct (gc_pre _); cbn; intros [<-|X]; try exact C; try tauto. destruct X as [<-|[]]. exact C. }
    destruct (negb (run_step _ _)); [cbn [snd] in H; tauto|].
    destruct (gated _ _ _ _ _ _ _) as [r es]. cbn [snd] in *. apply in_app_or in H. tauto. }
  destruct (gated_open _ _ _ _ _ _ _ _ G C) as [G1 G2].
  exists m. split; [|repeat split; auto].
  destruct (b_manifest b) as [m0|] eqn:EM.
  - destruct MM as (NF & l & ->). destruct (E6 m0 eq_refl) as (-> & E7). destruct (E7 eq_refl) as (mb & V1 & V2).
    assert (BS : bundle_sig (at_origin t) size (b_sig b) false) by (exists raw; auto).
    exists size, m0, l. split; [reflexivity|]. left. split.
    { exists (b_sig b), mb. split; [exact BS|]. split; [exact V2|]. split; [|discriminate]. intros _. split; [|exact V1].
      destruct (bi_kind _ _ I) as [(K & _)|(m1 & l1 & _ & _ & K & _)].
      - destruct K as [K|(m1 & K & KF)]; [congruence|]. rewrite EM in K. injection K as <-. contradiction.
      - destruct K as (s1 & mb1 & _ & _ & K & _). now apply K. }
    split; [exact NF|]. split.
    + intros h Hh. unfold hash_gate in HG. rewrite Hh, EM in HG. apply opt_is_spec in HG. unfold manifest_hash in HG. rewrite EM in HG.
      change (cm_verify (at_crypto t) (b_sig b) = Some mb) in V1. rewrite V1 in HG. cbn in HG. injection HG as HG.
      exists (b_sig b), mb. auto.
    + intros F. exists raw. split; [exact E1|]. apply E4. unfold crypt_gate in CG. rewrite EM, F in CG. cbn in CG.
      rewrite negb_involutive in CG. exact CG.
  - destruct MM as (m0 & l & M1 & M2 & ->). exists (b_size b), m0, l. split; [reflexivity|]. right.
    destruct (bi_kind _ _ I) as [(_ & K & _)|(m1 & l1 & K & _)]; [|congruence].
    split; [exact K|]. split; [exact M2|]. split; [|exact M1].
    unfold hash_gate in HG. destruct (ia_require_hash (at_args t)); [rewrite EM in HG; discriminate|reflexivity].
Qed.

(** closed gates, for a bundle that is checked and mounted: refused without changes *)
Lemma c43_refuse_ok : forall B (t : attempt B) m r es,
  attempt_run t = (r, es) ->
  (forall b e b', og_check (at_origin t) = Ok b ->
     mount_bundle (at_crypto t) (gc_bundle (at_conf t)) (at_file_mount t) (go_mount (at_out t)) b = Ok (b', e) -> b_manifest b' = Some m) ->
  ~ gates_open t m ->
  r <> Ok tt /\ (forall e, In e es -> ~ changes e) /\
  (r = Abort -> es = []).
Proof.
  intros B t m r es H HM NG.
  assert (NC : forall e, In e es -> ~ changes e).
  { intros e He C. assert (He' : In e (snd (attempt_run t))) by now rewrite H.
    unfold attempt_run, do_install in H.
    destruct (negb (go_mounts (at_out t))); [injection H as <- <-; destruct He|].
    destruct (check_bundle _ _ _ _ _ _ _) as [b| |] eqn:CB; [|injection H as <- <-; destruct He|injection H as <- <-; destruct He].
    destruct (negb (hash_gate _ _ _ _)); [injection H as <- <-; destruct He|].
    destruct (negb (crypt_gate b)); [injection H as <- <-; destruct He|].
    destruct (mount_bundle _ _ _ _ _) as [[b' ev]| |] eqn:MB; [|injection H as <- <-; destruct He|injection H as <- <-; destruct He].
    pose proof (HM _ _ _ CB MB) as Em. rewrite Em in H.
    assert (NP : ~ In e (GAccess ev :: step_ev (gc_pre (at_conf t)) GPre)).
    { unfold step_ev. destruct (gc_pre _); cbn; intros [<-|X]; try exact C; try tauto. destruct X as [<-|[]]. exact C. }
    destruct (negb (run_step _ _)); [injection H as <- <-; tauto|].
    destruct (gated _ _ _ _ _ _ _) as [r1 es1] eqn:G. injection H as <- <-. apply (in_app_or (GAccess ev :: step_ev (gc_pre (at_conf t)) GPre)) in He as [He|He]; [tauto|].
    assert (He1 : In e (snd (gated (at_backend t) (at_conf t) (at_args t) (at_out t) (at_inp t) m (at_world t)))) by (rewrite G; exact He).
    destruct (gated_open _ _ _ _ _ _ _ _ He1 C) as [G1 G2]. apply NG. split; [|split; assumption].
    destruct (mount_manifest _ _ _ _ _ _ _ MB) as (m' & Em' & MR & _). rewrite Em in Em'. injection Em' as <-. exact MR. }
  enough (X : r <> Ok tt /\ (r = Abort -> es = [])) by tauto.
  unfold attempt_run, do_install in H.
  destruct (negb (go_mounts (at_out t))); [injection H as <- <-; split; [discriminate|reflexivity]|].
  destruct (check_bundle _ _ _ _ _ _ _) as [b| |] eqn:CB; [|injection H as <- <-; split; [discriminate|reflexivity]..].
  destruct (negb (hash_gate _ _ _ _)); [injection H as <- <-; split; [discriminate|reflexivity]|].
  destruct (negb (crypt_gate b)); [injection H as <- <-; split; [discriminate|reflexivity]|].
  destruct (mount_bundle _ _ _ _ _) as [[b' ev]| |] eqn:MB; [|injection H as <- <-; split; [discriminate|reflexivity]..].
  pose proof (HM _ _ _ CB MB) as Em. rewrite Em in H.
  destruct (negb (run_step _ _)); [injection H as <- <-; split; discriminate|].
  destruct (mount_manifest _ _ _ _ _ _ _ MB) as (m' & Em' & MR & _). rewrite Em in Em'. injection Em' as <-.
  destruct (gated _ _ _ _ _ _ _) as [r1 es1] eqn:G. injection H as <- <-.
  enough (Y : r1 = Err) by (subst r1; split; discriminate).
  unfold gated in G.
  destruct (negb (if mf_install_check m then _ else _)) eqn:V; [now injection G as <- _|].
  destruct (negb (check_version_limits _ _ _)) eqn:L; [now injection G as <- _|].
  exfalso. apply NG. apply negb_false_iff in V, L. split; [exact MR|]. split.
  - destruct (mf_install_check m); [exact V|]. unfold verify_compatible in V. apply orb_true_iff in V as [V|V]; [now left|].
    right. now apply opt_eqb_spec.
  - unfold check_version_limits in L. destruct (gc_min_version (at_conf t)) as [min|]; [|now left].
    destruct (ia_ignore_version (at_args t)); [auto|]. right; right. destruct (mf_version m) as [v|]; [|discriminate].
    destruct (semver_less_equal min v) as [[]| |] eqn:S; try discriminate. eauto.
Qed.
(** ** Example: the toy CMS of BundleProofs.v, a boot loader with state [nat] *)
Definition ex_bk : backend nat := mkBackend (fun b _ => [S b]) (fun b _ => [S (S b)]).
Definition ex_slots : list slot :=
  [mkSlot "rootfs.0" "rootfs" "/dev/a" "raw" (Some "A") None false true;
   mkSlot "rootfs.1" "rootfs" "/dev/b" "raw" (Some "B") None false true].
Definition ex_img : image :=
  mkImage "rootfs" None None (Some ex_hex) 7 (Some "r.img") (Some "raw") true false false false [] [] [].
Definition ex_crypto (compat : string) (ver : option string) : crypto :=
  mkCrypto (cm_detached toy) (cm_enveloped toy) (cm_decrypt toy) (cm_verify toy) (cm_verify_fd toy) (cm_unverified toy)
    (fun s => Ok (mkManifest (Some compat) ver None None (Some "1.14") F_VERITY true (Some ex_hex) (Some ex_hex) 4096 None None None None false [ex_img] []))
    (cm_inner toy) (cm_verity toy).
Definition ex_gconf : gconf := mkGconf (Some "sys") (Some "2.0") true true ex_cf (mkConf ex_slots [] None false true).
Definition ex_go : gout := mkGout true true true true true true.
Definition ex_pout : plan_out := mkPout false true HOk true true.
Definition ex_inp : inputs :=
  mkInputs (fun n => if String.eqb n "rootfs.0" then ST_BOOTED else ST_INACTIVE) (fun _ => mkSel None None) []
    (mkChecks (fun _ => true) (fun _ => true) (fun _ => false) (fun _ => false) (fun _ => true)) true
    (mkRout (fun _ => ex_pout) None None true true).
Definition ex_world : world nat := mkWorld (fun _ => mkStat None None) (fun _ => mkStat None None) (fun _ => Torn) 0.
Definition ex_attempt (compat : string) (ver : option string) (a : iargs) : attempt nat :=
  mkAttempt nat (ex_crypto compat ver) (fun _ => "hash") ex_bk ex_gconf a ex_go false (ex_file 8192 ["V"%char]) [] true true ex_inp ex_world.

Lemma c43_pre_refuted : exists t : attempt nat,
  (exists m, from_bundle t m /\ mf_compatible m <> gc_compatible (at_conf t) /\ mf_install_check m = false) /\
  ia_ignore_compatible (at_args t) = false /\ fst (attempt_run t) = Err /\ In GPre (snd (attempt_run t)).
Proof.
  exists (ex_attempt "other" (Some "2.1") (mkIargs false false None)). split; [|split; [reflexivity|split; [vm_compute; reflexivity|vm_compute; auto]]].
  eexists. split; [|split].
  - exists 8192, (mkManifest (Some "other") (Some "2.1") None None (Some "1.14") F_VERITY true (Some ex_hex) (Some ex_hex) 4096 None None None None false [ex_img] []), [ex_img].
    split; [reflexivity|]. left. split.
    + exists ["V"%char], ["V"%char]. split; [|split; [reflexivity|split; [intros _; split; reflexivity|discriminate]]].
      exists ["V"%char]. split; [vm_compute; reflexivity|]. split; reflexivity.
    + split; [discriminate|]. split; [discriminate|discriminate].
  - discriminate.
  - reflexivity.
Qed.
