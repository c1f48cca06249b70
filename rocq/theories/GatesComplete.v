(** C43: the exact course of an installation whose bundle was checked and mounted. *)
From Verif Require Import Base BaseLemmas Slot Image Handlers KeyFile Hex Semver SemverSpec SemverProofs Manifest Bundle BundleSpec BundleProofs Install InstallRun Gates GatesSpec ManifestCheckProofs GatesProofs.
Open Scope list_scope.

(** result and events of the handler of the bundle, or of the default handler *)
Definition handler_run {B} (t : attempt B) (m : manifest) : res unit * list (gevent B) :=
  match mf_handler m with
  | Some _ => (if go_custom (at_out t) then Ok tt else Err, [GCustom])
  | None => let d := default_handler (at_backend t) (gc_sys (at_conf t)) (mf_images m)
                       (determine_target_group (cf_per_slot (gc_sys (at_conf t))) (in_states (at_inp t)) (in_info (at_inp t)) (cf_slots (gc_sys (at_conf t))))
                       (in_checks (at_inp t)) (in_artifacts_ok (at_inp t)) (in_out (at_inp t)) (at_world t) in
            (fst d, map GRun (snd d))
  end.
Definition opt_ev {A} (b : bool) (e : A) : list A := if b then [e] else [].

Lemma c43_course_ok : forall B (t : attempt B) b b' e m, go_mounts (at_out t) = true -> og_check (at_origin t) = Ok b ->
  (forall h, ia_require_hash (at_args t) = Some h -> b_manifest b <> None /\ exists mb, cm_verify (at_crypto t) (b_sig b) = Some mb /\ at_sha t mb = h) ->
  (forall m0, b_manifest b = Some m0 -> mf_format m0 = F_CRYPT -> b_was_encrypted b = true) ->
  mount_bundle (at_crypto t) (gc_bundle (at_conf t)) (at_file_mount t) (go_mount (at_out t)) b = Ok (b', e) -> b_manifest b' = Some m ->
  let '(r, es) := handler_run t m in
  let before := GAccess e :: opt_ev (gc_pre (at_conf t)) GPre in
  (gc_pre (at_conf t) = true -> go_pre (at_out t) = false -> attempt_run t = (Err, before)) /\
  ((gc_pre (at_conf t) = true -> go_pre (at_out t) = true) ->
     (gates_open t m -> attempt_run t =
        (match r with Ok _ => if gc_post (at_conf t) && negb (go_post (at_out t)) then Err else Ok tt | _ => r end,
         before ++ opt_ev (mf_install_check m) GHook ++ es ++ opt_ev (match r with Ok _ => gc_post (at_conf t) | _ => false end) GPost)) /\
     (~ gates_open t m -> attempt_run t = (Err, before ++ opt_ev (mf_install_check m) GHook))).
Proof.
  intros B t b b' e m HM HC HH HE HMB EM. destruct (handler_run t m) as [r es] eqn:HR. cbv zeta.
  assert (MR : forall v, mf_min_rauc m = Some v -> semver_less_equal v (bc_rauc (gc_bundle (at_conf t))) = Ok true).
  { destruct (mount_manifest _ _ _ _ _ _ _ HMB) as (m' & Em' & MR & _). rewrite EM in Em'. injection Em' as <-. exact MR. }
  assert (HG : hash_gate (at_crypto t) (at_sha t) (at_args t) b = true).
  { unfold hash_gate. destruct (ia_require_hash (at_args t)) as [h|]; [|reflexivity]. destruct (HH h eq_refl) as (N & mb & V & E). unfold manifest_hash.
    destruct (b_manifest b); [|now contradiction N]. rewrite V. cbn [option_map]. apply opt_is_spec. now rewrite E. }
  assert (CG : crypt_gate b = true).
  { unfold crypt_gate. destruct (b_manifest b) as [m0|]; [|reflexivity]. specialize (HE m0 eq_refl). destruct (mf_format m0); try reflexivity. now rewrite (HE eq_refl). }
  assert (RUN : attempt_run t = (if negb (run_step (gc_pre (at_conf t)) (go_pre (at_out t))) then (Err, GAccess e :: step_ev (gc_pre (at_conf t)) GPre)
     else let '(r, es) := gated (at_backend t) (at_conf t) (at_args t) (at_out t) (at_inp t) m (at_world t) in (r, (GAccess e :: step_ev (gc_pre (at_conf t)) GPre) ++ es))).
  { unfold attempt_run, do_install. rewrite HM. cbn [negb]. change (check_bundle _ _ _ _ _ _ _) with (og_check (at_origin t)). rewrite HC, HG, CG. cbn [negb]. rewrite HMB, EM. reflexivity. }
  assert (GATES : (negb (if mf_install_check m then go_hook (at_out t) else verify_compatible (at_args t) (at_conf t) m) || negb (check_version_limits (at_args t) (at_conf t) m)) = false <-> gates_open t m).
  { rewrite orb_false_iff, !negb_false_iff. unfold gates_open. split.
    - intros [V L]. split; [exact MR|]. split.
      + destruct (mf_install_check m); [exact V|]. unfold verify_compatible in V. apply orb_true_iff in V as [V|V]; [now left|]. right. now apply opt_eqb_spec.
      + unfold check_version_limits in L. destruct (gc_min_version (at_conf t)) as [min|]; [|now left]. destruct (ia_ignore_version (at_args t)); [auto|]. right; right. destruct (mf_version m) as [v|]; [|discriminate].
        destruct (semver_less_equal min v) as [[]| |] eqn:S; try discriminate. eauto.
    - intros (_ & V & L). split.
      + destruct (mf_install_check m); [exact V|]. unfold verify_compatible. apply orb_true_iff. destruct V as [V|V]; [now left|]. right. now apply opt_eqb_spec.
      + unfold check_version_limits. destruct L as [-> |[-> |(min & v & -> & -> & ->)]]; [reflexivity|destruct (gc_min_version (at_conf t)); reflexivity|destruct (ia_ignore_version (at_args t)); reflexivity]. }
  assert (STEP : forall c k, run_step c k = (if c then k else true)) by (intros [] []; reflexivity).
  rewrite STEP in RUN. unfold step_ev in RUN. unfold opt_ev.
  assert (GT : gated (at_backend t) (at_conf t) (at_args t) (at_out t) (at_inp t) m (at_world t) =
     if negb (if mf_install_check m then go_hook (at_out t) else verify_compatible (at_args t) (at_conf t) m) || negb (check_version_limits (at_args t) (at_conf t) m)
     then (Err, if mf_install_check m then [GHook] else [])
     else (match r with Ok _ => if gc_post (at_conf t) && negb (go_post (at_out t)) then Err else Ok tt | _ => r end,
           (if mf_install_check m then [GHook] else []) ++ es ++ (if (match r with Ok _ => gc_post (at_conf t) | _ => false end) then [GPost] else []))).
  { unfold gated, step_ev. unfold handler_run in HR.
    destruct (negb (if mf_install_check m then _ else _)); [reflexivity|]. cbn [orb]. destruct (negb (check_version_limits _ _ _)); [reflexivity|].
    assert (HR' : (match mf_handler m with
                    | Some _ => (if go_custom (at_out t) then Ok tt else Err, [GCustom])
                    | None => let '(r0, es0) := default_handler (at_backend t) (gc_sys (at_conf t)) (mf_images m)
                              (determine_target_group (cf_per_slot (gc_sys (at_conf t))) (in_states (at_inp t)) (in_info (at_inp t)) (cf_slots (gc_sys (at_conf t))))
                              (in_checks (at_inp t)) (in_artifacts_ok (at_inp t)) (in_out (at_inp t)) (at_world t) in (r0, map GRun es0) end) = (r, es)).
    { rewrite <- HR. destruct (mf_handler m); [reflexivity|]. destruct (default_handler _ _ _ _ _ _ _ _); reflexivity. }
    rewrite HR'. rewrite STEP. destruct r as [[]| |]; cbv iota; rewrite ?app_nil_r; try reflexivity.
    destruct (gc_post (at_conf t)), (go_post (at_out t)); reflexivity. }
  split; [|intros PRE; split].
  - intros P1 P2. rewrite RUN, P1, P2. reflexivity.
  - intros G. apply GATES in G. rewrite RUN, GT, G. destruct (gc_pre (at_conf t)); [rewrite (PRE eq_refl)|]; cbn [negb]; reflexivity.
  - intros NG. destruct (_ || _) eqn:X in GATES, GT; [|exfalso; apply NG; now apply GATES].
    rewrite RUN, GT. destruct (gc_pre (at_conf t)); [rewrite (PRE eq_refl)|]; cbn [negb]; reflexivity.
Qed.
