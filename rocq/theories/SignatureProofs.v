From Verif Require Import Base Image KeyFile Hex Semver Manifest Bundle BundleSpec Signature SignatureSpec BaseLemmas.

Lemma code_sign_leaf : forall x, check_purpose_code_sign x false <> 0%N <-> code_signer x.
Proof.
  intros x. unfold check_purpose_code_sign, code_signer.
  destruct (ct_ku x) as [[|]|], (ct_eku x) as [[|]|]; split; intros H; try tauto; try discriminate;
    try (split; [reflexivity|discriminate]); try (destruct H as [H1 H2]; try discriminate H1; try (exfalso; apply H2; reflexivity)).
Qed.
Lemma code_sign_ca : forall x, check_purpose_code_sign x true <> 0%N <-> code_ca x.
Proof.
  intros x. unfold check_purpose_code_sign, code_ca.
  destruct (ct_eku x) as [[|]|]; split; intros H.
  - split; [discriminate|exact H].
  - apply H.
  - exfalso; apply H; reflexivity.
  - destruct H as [H _]. exfalso; apply H; reflexivity.
  - split; [discriminate|exact H].
  - apply H.
Qed.

Lemma check_cns_one : forall allowed x, check_cns allowed [x] = true <->
  exists cn, ct_cn x = Some cn /\ In cn allowed /\ has_nul cn = false.
Proof.
  intros allowed x. cbn [check_cns]. destruct (ct_cn x) as [cn|].
  - destruct (has_nul cn) eqn:E.
    + split; [discriminate|]. intros (cn' & H & _ & Hn). injection H as <-. congruence.
    + destruct (existsb (String.eqb cn) allowed) eqn:Ex.
      * split; [intros _|reflexivity]. exists cn. split; [reflexivity|]. split; [|exact E].
        apply existsb_exists in Ex. destruct Ex as (y & Hy & He). apply String.eqb_eq in He. subst. exact Hy.
      * split; [discriminate|]. intros (cn' & H & Hin & _). injection H as <-.
        assert (existsb (String.eqb cn) allowed = true) by (apply existsb_exists; exists cn; split; [exact Hin|apply String.eqb_refl]).
        congruence.
  - split; [discriminate|]. intros (cn' & H & _). discriminate.
Qed.

(** the store check_bundle uses *)
Definition conf_store (K : keyconf) (t : option Z) : store :=
  mkStore (k_path K) (k_dir K) (k_crl K) (k_partial K) (k_purpose K) (k_no_time K) t.

Lemma bundle_store_some : forall L K st, bundle_store L K = Some st <->
  ssl_load L (k_path K) (k_dir K) = true /\ (forall p, k_purpose K = Some p -> known_purpose L p = true) /\ st = conf_store K None.
Proof.
  intros L K st. unfold bundle_store, setup_store, pick, conf_store.
  destruct (ssl_load L (k_path K) (k_dir K)); cbn.
  2:{ split; [discriminate|]. intros [H _]; discriminate. }
  destruct (k_purpose K) as [p|].
  - destruct (known_purpose L p) eqn:E.
    + destruct (k_no_time K); cbn; split.
      * intros H; injection H as <-. split; [reflexivity|]. split; [intros q Hq; injection Hq as <-; exact E|reflexivity].
      * intros (_ & _ & ->). reflexivity.
      * intros H; injection H as <-. split; [reflexivity|]. split; [intros q Hq; injection Hq as <-; exact E|reflexivity].
      * intros (_ & _ & ->). reflexivity.
    + split; [discriminate|]. intros (_ & H & _). specialize (H p eq_refl). congruence.
  - destruct (k_no_time K); cbn; split.
    + intros H; injection H as <-. split; [reflexivity|]. split; [discriminate|reflexivity].
    + intros (_ & _ & ->). reflexivity.
    + intros H; injection H as <-. split; [reflexivity|]. split; [discriminate|reflexivity].
    + intros (_ & _ & ->). reflexivity.
Qed.

Definition time_of (K : keyconf) (c : cms) : option (option Z) :=
  if k_signing_time K then match get_signingtime c with Some t => Some (Some t) | None => None end else Some None.

(** the answer of cms_verify_bytes plus cms_get_cert_chain for the store of check_bundle *)
Definition accepted (L : openssl) (K : keyconf) (c : cms) (s : signer) (x : cert) (t : option Z) (content : bytes) : Prop :=
  cs_type c = TSigned /\ cs_signers c = [s] /\ si_cert s = Some x /\
  time_of K c = Some t /\
  (exists ch, ssl_chain L (cms_store (conf_store K t)) x (cs_certs c) = Some ch) /\
  (exists ch, ssl_chain L (conf_store K t) x (cs_certs c) = Some ch) /\
  ssl_sig L s content = true /\ cn_allowed K x.

Lemma verified_signers_len : forall L st c content, cms_verify L st c content = true ->
  List.length (signer_certs c) = List.length (cs_signers c).
Proof.
  intros L st c content H. unfold cms_verify in H. apply andb_prop in H. destruct H as [_ H].
  unfold signer_certs. induction (cs_signers c) as [|s r IH]; [reflexivity|]. cbn in *. apply andb_prop in H. destruct H as [H1 H2].
  destruct (si_cert s); [|discriminate]. cbn. f_equal. apply IH, H2.
Qed.

Lemma run_accepted : forall L K c content t,
  (exists st', time_of K c = Some t /\ st' = conf_store K t /\ cms_verify L st' c content = true /\
     check_signer_cns K c = true /\ exists ch, get_cert_chain L st' c = Some ch) /\ cs_type c = TSigned <->
  exists s x, accepted L K c s x t content.
Proof.
  intros L K c content t. split.
  - intros ((st' & Ht & -> & Hv & Hcn & ch & Hch) & Hty). pose proof (verified_signers_len _ _ _ _ Hv) as Hl.
    unfold get_cert_chain in Hch. destruct (signer_certs c) as [|x [|]] eqn:Ec; try discriminate. cbn in Hl.
    destruct (cs_signers c) as [|s [|]] eqn:Es; try discriminate.
    unfold signer_certs in Ec. rewrite Es in Ec. cbn in Ec. destruct (si_cert s) as [x'|] eqn:Ex; [|discriminate].
    cbn in Ec. injection Ec as ->. exists s, x. unfold accepted.
    unfold cms_verify in Hv. rewrite Es in Hv. cbn in Hv. rewrite Ex in Hv. rewrite andb_true_r in Hv.
    destruct (ssl_chain L (cms_store (conf_store K t)) x (cs_certs c)) as [ch1|] eqn:E1; [|discriminate].
    repeat (split; [first [exact Hty|exact Es|exact Ex|exact Ht|exact Hv|eexists; first [exact E1|exact Hch|reflexivity]]|]).
    unfold cn_allowed. unfold check_signer_cns in Hcn. destruct (k_cns K); [|trivial].
    unfold signer_certs in Hcn. rewrite Es in Hcn. cbn [flat_map] in Hcn. rewrite Ex in Hcn. apply check_cns_one, Hcn.
  - intros (s & x & Hty & Hs & Hx & Ht & (ch1 & H1) & (ch2 & H2) & Hsig & Hcn). split; [|exact Hty].
    exists (conf_store K t). split; [exact Ht|]. split; [reflexivity|].
    assert (Hsc : signer_certs c = [x]) by (unfold signer_certs; rewrite Hs; cbn; rewrite Hx; reflexivity).
    split.
    { unfold cms_verify. rewrite Hs. cbn. rewrite Hx, H1, Hsig. reflexivity. }
    split.
    { unfold check_signer_cns. unfold cn_allowed in Hcn. destruct (k_cns K); [|reflexivity]. rewrite Hsc. apply check_cns_one, Hcn. }
    exists ch2. unfold get_cert_chain. rewrite Hsc. exact H2.
Qed.

Lemma store_ready_iff : forall L K, store_ready L K <->
  ssl_load L (k_path K) (k_dir K) = true /\ (forall p, k_purpose K = Some p -> known_purpose L p = true).
Proof.
  intros L K. unfold store_ready, known_purpose. split; intros [H1 H2]; (split; [exact H1|]); intros p Hp; specialize (H2 p Hp).
  - destruct H2 as [->|H2]; [reflexivity|]. rewrite H2. apply orb_true_r.
  - apply orb_prop in H2. destruct H2 as [H2|H2]; [left; apply String.eqb_eq, H2|right; exact H2].
Qed.

Lemma verify_sig_iff : forall L K sig m, verify_sig L K sig = Some m <->
  store_ready L K /\ exists c s x t, ssl_parse L sig = Some c /\ cs_content c = Some m /\ accepted L K c s x t m.
Proof.
  intros L K sig m. unfold verify_sig. split.
  - destruct (bundle_store L K) as [st|] eqn:Eb; [|discriminate]. apply bundle_store_some in Eb. destruct Eb as (Hl & Hp & ->).
    intros H. split; [apply store_ready_iff; split; assumption|].
    destruct (verify_bytes L K (conf_store K None) None true sig) as [[[c st'] [m'|]]|] eqn:Ev; try discriminate.
    destruct (get_cert_chain L st' c) as [ch|] eqn:Ech; [|discriminate]. injection H as ->.
    unfold verify_bytes in Ev. destruct (ssl_parse L sig) as [c'|] eqn:Ep; [|discriminate].
    destruct (cs_type c') eqn:Et; try discriminate. destruct (cs_content c') as [inner|] eqn:Ec; [|discriminate].
    destruct (if k_signing_time K then _ else _) as [st2|] eqn:E2; [|discriminate].
    destruct (cms_verify L st2 c' inner) eqn:Ecv; [|discriminate].
    destruct (check_signer_cns K c') eqn:Ecn; [|discriminate].
    assert (c' = c) by congruence. assert (st2 = st') by congruence. assert (inner = m) by congruence. subst c' st2 inner.
    assert (Ht : exists t, time_of K c = Some t /\ st' = conf_store K t).
    { unfold time_of. destruct (k_signing_time K).
      - destruct (get_signingtime c) as [t|]; [|discriminate]. injection E2 as <-. exists (Some t). split; reflexivity.
      - injection E2 as <-. exists None. split; reflexivity. }
    destruct Ht as (t & Ht & ->).
    destruct (proj1 (run_accepted L K c m t)) as (s & x & Ha).
    { split; [|exact Et]. exists (conf_store K t). repeat (split; [first [exact Ht|reflexivity|exact Ecv|exact Ecn]|]). exists ch; exact Ech. }
    exists c, s, x, t. split; [reflexivity|]. split; [exact Ec|exact Ha].
  - intros (Hr & c & s & x & t & Hparse & Hcont & Ha).
    apply store_ready_iff in Hr. destruct Hr as [Hl Hp].
    assert (Eb : bundle_store L K = Some (conf_store K None)) by (apply bundle_store_some; auto). rewrite Eb.
    destruct (proj2 (run_accepted L K c m t)) as ((st' & Ht & -> & Hv & Hcn & ch & Hch) & Hty); [exists s, x; exact Ha|].
    unfold verify_bytes. rewrite Hparse, Hty, Hcont.
    assert (E2 : (if k_signing_time K then match get_signingtime c with Some t0 => Some (with_time (conf_store K None) t0) | None => None end
                  else Some (conf_store K None)) = Some (conf_store K t)).
    { unfold time_of in Ht. destruct (k_signing_time K).
      - destruct (get_signingtime c) as [t0|]; [|discriminate]. injection Ht as <-. reflexivity.
      - injection Ht as <-. reflexivity. }
    rewrite E2, Hv, Hcn, Hch. reflexivity.
Qed.

Lemma verify_fd_iff : forall L K payload sig, verify_fd L K payload sig = true <->
  store_ready L K /\ payload <> [] /\ (N.of_nat (List.length payload) <= max_plain)%N /\
  exists c s x t, ssl_parse L sig = Some c /\ cs_content c = None /\ accepted L K c s x t payload.
Proof.
  intros L K payload sig. unfold verify_fd. split.
  - destruct (bundle_store L K) as [st|] eqn:Eb; [|discriminate]. apply bundle_store_some in Eb. destruct Eb as (Hl & Hp & ->).
    destruct (Nat.eqb (List.length payload) 0) eqn:E0; [discriminate|].
    destruct (max_plain <? N.of_nat (List.length payload))%N eqn:Em; [discriminate|].
    intros H. split; [apply store_ready_iff; split; assumption|].
    split; [intros ->; discriminate|]. split; [apply N.ltb_ge in Em; exact Em|].
    destruct (verify_bytes L K (conf_store K None) (Some payload) false sig) as [[[c st'] o]|] eqn:Ev; try discriminate.
    destruct (get_cert_chain L st' c) as [ch|] eqn:Ech; [|discriminate]. clear H.
    unfold verify_bytes in Ev. destruct (ssl_parse L sig) as [c'|] eqn:Ep; [|discriminate].
    destruct (cs_type c') eqn:Et; try discriminate. destruct (cs_content c') as [inner|] eqn:Ec; [discriminate|].
    destruct (if k_signing_time K then _ else _) as [st2|] eqn:E2; [|discriminate].
    destruct (cms_verify L st2 c' payload) eqn:Ecv; [|discriminate].
    destruct (check_signer_cns K c') eqn:Ecn; [|discriminate].
    assert (c' = c) by congruence. assert (st2 = st') by congruence. subst c' st2.
    assert (Ht : exists t, time_of K c = Some t /\ st' = conf_store K t).
    { unfold time_of. destruct (k_signing_time K).
      - destruct (get_signingtime c) as [t|]; [|discriminate]. injection E2 as <-. exists (Some t). split; reflexivity.
      - injection E2 as <-. exists None. split; reflexivity. }
    destruct Ht as (t & Ht & ->).
    destruct (proj1 (run_accepted L K c payload t)) as (s & x & Ha).
    { split; [|exact Et]. exists (conf_store K t). repeat (split; [first [exact Ht|reflexivity|exact Ecv|exact Ecn]|]). exists ch; exact Ech. }
    exists c, s, x, t. split; [reflexivity|]. split; [exact Ec|exact Ha].
  - intros (Hr & Hne & Hlen & c & s & x & t & Hparse & Hcont & Ha).
    apply store_ready_iff in Hr. destruct Hr as [Hl Hp].
    assert (Eb : bundle_store L K = Some (conf_store K None)) by (apply bundle_store_some; auto). rewrite Eb.
    destruct payload as [|b r] eqn:Epl; [congruence|]. rewrite <- Epl in *. clear Hne.
    replace (Nat.eqb (List.length payload) 0) with false by (rewrite Epl; reflexivity).
    replace (max_plain <? N.of_nat (List.length payload))%N with false by (symmetry; apply N.ltb_ge; exact Hlen).
    destruct (proj2 (run_accepted L K c payload t)) as ((st' & Ht & -> & Hv & Hcn & ch & Hch) & Hty); [exists s, x; exact Ha|].
    unfold verify_bytes. rewrite Hparse, Hty, Hcont.
    assert (E2 : (if k_signing_time K then match get_signingtime c with Some t0 => Some (with_time (conf_store K None) t0) | None => None end
                  else Some (conf_store K None)) = Some (conf_store K t)).
    { unfold time_of in Ht. destruct (k_signing_time K).
      - destruct (get_signingtime c) as [t0|]; [|discriminate]. injection Ht as <-. reflexivity.
      - injection Ht as <-. reflexivity. }
    rewrite E2, Hv, Hcn, Hch. reflexivity.
Qed.

Lemma accepted_signed_by : forall L P K c s x t content, honest L P -> accepted L K c s x t content -> signed_by L P K c x content.
Proof.
  intros L P K c s x t content Hh (Hty & Hs & Hx & Ht & (ch1 & H1) & _ & Hsig & Hcn).
  unfold signed_by. split; [exact Hty|]. exists s. repeat (split; [assumption|]). split; [|exact Hcn].
  destruct (Hh _ _ _ _ H1) as (rest & -> & Hl & Hk & Hself & Htime & Hcrl & Hpu & Hbp). cbn in Hk, Hself, Htime, Hcrl, Hpu, Hbp.
  exists rest. split; [exact Hl|]. split; [exact Hk|]. split; [exact Hself|].
  unfold time_of in Ht. split; [|split; [|split; [|split]]].
  - intros E. rewrite E in Ht. unfold get_signingtime in Ht. rewrite Hs in Ht. unfold signing_time.
    destruct (si_time s) as [[| |z]|]; try discriminate. destruct (z <? 0)%Z eqn:Ez; [discriminate|]. injection Ht as <-.
    exists z. split; [reflexivity|]. split; [apply Z.ltb_ge in Ez; exact Ez|]. apply Htime. reflexivity.
  - intros E En. rewrite E in Ht. injection Ht as <-. apply Htime. cbn. rewrite En. reflexivity.
  - exact Hcrl.
  - intros Ep. rewrite Ep in Hpu. specialize (Hpu eq_refl). destruct Hpu as [Ha Hb]. split; [apply code_sign_leaf, Ha|].
    eapply Forall_impl; [|exact Hb]. intros y Hy. apply code_sign_ca, Hy.
  - intros p -> Hne. apply Hbp; [|exact Hne]. destruct (k_purpose K); reflexivity.
Qed.

(** C56: what an accepted bundle was signed by *)
Lemma check_signed_ok : forall L P K load inner verity cf pr (remote : bool) f excl access b,
  honest L P ->
  check L K load inner verity cf pr remote f excl access = Ok b -> bp_verify pr = true ->
  exists size raw sig c x,
    (if remote then open_remote (bc_maxsig cf) f else open_local (bc_maxsig cf) f) = Ok (size, raw) /\
    (if is_enveloped L raw then decrypt L raw = Some sig else sig = raw) /\
    ssl_parse L sig = Some c /\
    ((remote = false /\ cs_content c = None /\ signed_by L P K c x (firstn size f)) \/
     (exists m mf, cs_content c = Some m /\ signed_by L P K c x m /\ load m = Ok mf /\ b_manifest b = Some mf)).
Proof.
  intros L P K load inner verity cf pr remote f excl access b Hh H Hv. unfold check, check_bundle in H. rewrite Hv in H. cbn [andb] in H.
  destruct (bc_keyring cf); [|discriminate]. cbn [negb] in H.
  destruct (if remote then open_remote (bc_maxsig cf) f else open_local (bc_maxsig cf) f) as [[size raw]| |] eqn:Eo; try discriminate.
  cbn [bind] in H. cbn [cm_detached cm_enveloped cm_decrypt cm_verify cm_verify_fd cm_load sig_crypto] in H.
  destruct (is_detached L raw) as [det|] eqn:Ed; [|discriminate]. cbn [of_option bind] in H.
  destruct (det && remote) eqn:Edr; [discriminate|].
  destruct (is_enveloped L raw) eqn:Ee.
  - destruct (bc_key cf); [|discriminate]. destruct (decrypt L raw) as [sig|] eqn:Edec; [|discriminate]. cbn [bind] in H.
    exists size, raw, sig. destruct det.
    + destruct (bp_trust_env pr || excl); [|discriminate]. destruct (verify_fd L K (firstn size f) sig) eqn:Evf; [|discriminate].
      apply verify_fd_iff in Evf. destruct Evf as (_ & _ & _ & c & s & x & t & Hp & Hc & Ha). exists c, x.
      split; [reflexivity|]. split; [rewrite Ee; exact Edec|]. split; [exact Hp|]. left.
      split; [destruct remote; [discriminate|reflexivity]|]. split; [exact Hc|]. eapply accepted_signed_by; eauto.
    + destruct (verify_sig L K sig) as [m|] eqn:Evs; [|discriminate]. apply verify_sig_iff in Evs.
      destruct Evs as (_ & c & s & x & t & Hp & Hc & Ha). exists c, x. cbn [bind] in H.
      destruct (load m) as [mf| |] eqn:El; try discriminate. cbn [bind] in H.
      destruct (bformat_eqb (mf_format mf) F_PLAIN); [discriminate|]. cbn [bind] in H.
      destruct (negb (format_allowed cf (Some mf))); [discriminate|]. apply Ok_inj in H. subst b.
      split; [reflexivity|]. split; [rewrite Ee; exact Edec|]. split; [exact Hp|]. right. exists m, mf. split; [exact Hc|].
      split; [eapply accepted_signed_by; eauto|]. split; [exact El|reflexivity].
  - cbn [bind] in H. exists size, raw, raw. destruct det.
    + destruct (bp_trust_env pr || excl); [|discriminate]. destruct (verify_fd L K (firstn size f) raw) eqn:Evf; [|discriminate].
      apply verify_fd_iff in Evf. destruct Evf as (_ & _ & _ & c & s & x & t & Hp & Hc & Ha). exists c, x.
      split; [reflexivity|]. split; [rewrite Ee; reflexivity|]. split; [exact Hp|]. left.
      split; [destruct remote; [discriminate|reflexivity]|]. split; [exact Hc|]. eapply accepted_signed_by; eauto.
    + destruct (verify_sig L K raw) as [m|] eqn:Evs; [|discriminate]. apply verify_sig_iff in Evs.
      destruct Evs as (_ & c & s & x & t & Hp & Hc & Ha). exists c, x. cbn [bind] in H.
      destruct (load m) as [mf| |] eqn:El; try discriminate. cbn [bind] in H.
      destruct (bformat_eqb (mf_format mf) F_PLAIN); [discriminate|]. cbn [bind] in H.
      destruct (negb (format_allowed cf (Some mf))); [discriminate|]. apply Ok_inj in H. subst b.
      split; [reflexivity|]. split; [rewrite Ee; reflexivity|]. split; [exact Hp|]. right. exists m, mf. split; [exact Hc|].
      split; [eapply accepted_signed_by; eauto|]. split; [exact El|reflexivity].
Qed.

(** a single trusted signer is accepted *)
Lemma trusted_accepted : forall L P K c s x rest content,
  complete L P -> cs_type c = TSigned -> cs_signers c = [s] -> si_cert s = Some x ->
  ssl_sig L s content = true -> cn_allowed K x ->
  trusted_by P K (signing_time s) x rest ->
  (forall y, In y rest -> In y (cs_certs c) \/ p_keyring P (k_path K) (k_dir K) y = true) ->
  exists t, accepted L K c s x t content.
Proof.
  intros L P K c s x rest content Hco Hty Hs Hx Hsig Hcn (Hl & Hk & Hself & Hst & Hnow & Hcrl & Hcs & Hbp) Hin.
  assert (Ht : exists t, time_of K c = Some t /\
            (forall z, check_time (k_no_time K) t (p_now P) = Some z -> Forall (fun y => p_valid P y z = true) (x :: rest))).
  { unfold time_of. destruct (k_signing_time K).
    - destruct (Hst eq_refl) as (z & Hz & H0 & Hv). exists (Some z). split.
      + unfold get_signingtime. rewrite Hs. unfold signing_time in Hz. destruct (si_time s) as [[| |z']|]; try discriminate.
        injection Hz as ->. replace (z <? 0)%Z with false by (symmetry; apply Z.ltb_ge; exact H0). reflexivity.
      + intros z' Hz'. cbn in Hz'. injection Hz' as <-. exact Hv.
    - exists None. split; [reflexivity|]. intros z Hz. cbn in Hz. destruct (k_no_time K); [discriminate|]. injection Hz as <-. apply Hnow; reflexivity. }
  destruct Ht as (t & Ht & Htv). exists t. unfold accepted. repeat (split; [assumption|]).
  assert (Hcsp : forall p, k_purpose K = Some p -> p = "codesign-rauc" ->
            check_purpose_code_sign x false <> 0%N /\ Forall (fun y => check_purpose_code_sign y true <> 0%N) rest).
  { intros p Hp ->. destruct (Hcs Hp) as [H1 H2]. split; [apply code_sign_leaf, H1|]. eapply Forall_impl; [|exact H2]. intros y Hy; apply code_sign_ca, Hy. }
  split; [|split; [|split; [exact Hsig|exact Hcn]]].
  - apply Hco with (rest := rest); [|exact Hin]. split; [exact Hl|]. cbn. split; [exact Hk|]. split; [exact Hself|]. split; [exact Htv|].
    split; [exact Hcrl|]. split.
    + intros Hp. destruct (k_purpose K) as [p|] eqn:Ep; [|discriminate]. injection Hp as ->. apply (Hcsp _ eq_refl eq_refl).
    + intros p Hp Hne. apply Hbp; [|exact Hne]. destruct (k_purpose K); congruence.
  - apply Hco with (rest := rest); [|exact Hin]. split; [exact Hl|]. cbn. split; [exact Hk|]. split; [exact Hself|]. split; [exact Htv|].
    split; [exact Hcrl|]. split.
    + intros Hp. apply (Hcsp _ Hp eq_refl).
    + intros p Hp Hne. apply Hbp; [|exact Hne]. rewrite Hp. reflexivity.
Qed.

Lemma verify_inline_complete_ok : forall L P K sig c s x rest m,
  complete L P -> store_ready L K ->
  ssl_parse L sig = Some c -> cs_type c = TSigned -> cs_content c = Some m -> cs_signers c = [s] -> si_cert s = Some x ->
  ssl_sig L s m = true -> cn_allowed K x -> trusted_by P K (signing_time s) x rest ->
  (forall y, In y rest -> In y (cs_certs c) \/ p_keyring P (k_path K) (k_dir K) y = true) ->
  verify_sig L K sig = Some m.
Proof.
  intros L P K sig c s x rest m Hco Hr Hp Hty Hc Hs Hx Hsig Hcn Htr Hin.
  destruct (trusted_accepted _ _ _ _ _ _ _ m Hco Hty Hs Hx Hsig Hcn Htr Hin) as (t & Ha).
  apply verify_sig_iff. split; [exact Hr|]. exists c, s, x, t. auto.
Qed.
Lemma verify_detached_complete_ok : forall L P K sig c s x rest payload,
  complete L P -> store_ready L K ->
  ssl_parse L sig = Some c -> cs_type c = TSigned -> cs_content c = None -> cs_signers c = [s] -> si_cert s = Some x ->
  ssl_sig L s payload = true -> cn_allowed K x -> trusted_by P K (signing_time s) x rest ->
  (forall y, In y rest -> In y (cs_certs c) \/ p_keyring P (k_path K) (k_dir K) y = true) ->
  payload <> [] -> (N.of_nat (List.length payload) <= 2147483647)%N ->
  verify_fd L K payload sig = true.
Proof.
  intros L P K sig c s x rest payload Hco Hr Hp Hty Hc Hs Hx Hsig Hcn Htr Hin Hne Hlen.
  destruct (trusted_accepted _ _ _ _ _ _ _ payload Hco Hty Hs Hx Hsig Hcn Htr Hin) as (t & Ha).
  apply verify_fd_iff. split; [exact Hr|]. split; [exact Hne|]. split; [exact Hlen|]. exists c, s, x, t. auto.
Qed.

(** a signed local or streamed bundle with inline signature is accepted by check_bundle *)
Lemma check_complete_ok : forall L P K load inner verity cf pr (remote : bool) f excl access size raw c s x rest m mf,
  complete L P -> store_ready L K -> bp_verify pr = true -> bc_keyring cf = true ->
  (if remote then open_remote (bc_maxsig cf) f else open_local (bc_maxsig cf) f) = Ok (size, raw) ->
  ssl_parse L raw = Some c -> cs_type c = TSigned -> cs_content c = Some m -> cs_signers c = [s] -> si_cert s = Some x ->
  ssl_sig L s m = true -> cn_allowed K x -> trusted_by P K (signing_time s) x rest ->
  (forall y, In y rest -> In y (cs_certs c) \/ p_keyring P (k_path K) (k_dir K) y = true) ->
  load m = Ok mf -> mf_format mf <> F_PLAIN -> bc_allowed cf (mf_format mf) = true ->
  exists b, check L K load inner verity cf pr remote f excl access = Ok b /\ b_manifest b = Some mf /\ b_sig_verified b = true.
Proof.
  intros L P K load inner verity cf pr remote f excl access size raw c s x rest m mf Hco Hr Hv Hk Ho Hp Hty Hc Hs Hx Hsig Hcn Htr Hin Hl Hf Hal.
  pose proof (verify_inline_complete_ok _ _ _ _ _ _ _ _ _ Hco Hr Hp Hty Hc Hs Hx Hsig Hcn Htr Hin) as HV.
  unfold check, check_bundle. rewrite Hv, Hk. cbn [andb negb]. rewrite Ho. cbn [bind].
  cbn [cm_detached cm_enveloped cm_decrypt cm_verify cm_verify_fd cm_load sig_crypto].
  unfold is_detached at 1. rewrite Hp, Hc. cbn [of_option bind andb].
  unfold is_enveloped. rewrite Hp, Hty. cbn [bind]. rewrite HV. cbn [bind]. rewrite Hl. cbn [bind].
  replace (bformat_eqb (mf_format mf) F_PLAIN) with false by (destruct (mf_format mf); [congruence|reflexivity|reflexivity]).
  cbn [bind]. replace (format_allowed cf (Some mf)) with true.
  - cbn [negb]. eexists. split; [reflexivity|]. split; reflexivity.
  - unfold format_allowed. destruct (mf_format mf); [reflexivity|exact (eq_sym Hal)|exact (eq_sym Hal)].
Qed.

(** without a readable keyring or with an unknown purpose nothing is accepted *)
Lemma not_ready_ok : forall L K load inner verity cf pr (remote : bool) f excl access b,
  ~ store_ready L K -> bp_verify pr = true -> check L K load inner verity cf pr remote f excl access <> Ok b.
Proof.
  intros L K load inner verity cf pr remote f excl access b Hn Hv H. unfold check, check_bundle in H. rewrite Hv in H. cbn [andb] in H.
  destruct (bc_keyring cf); [|discriminate]. cbn [negb] in H.
  destruct (if remote then open_remote (bc_maxsig cf) f else open_local (bc_maxsig cf) f) as [[size raw]| |]; try discriminate.
  cbn [bind] in H. cbn [cm_detached cm_enveloped cm_decrypt cm_verify cm_verify_fd cm_load sig_crypto] in H.
  destruct (is_detached L raw) as [det|]; [|discriminate]. cbn [of_option bind] in H.
  destruct (det && remote); [discriminate|].
  assert (Hvs : forall sg, verify_sig L K sg = None).
  { intros sg. destruct (verify_sig L K sg) eqn:E; [|reflexivity]. apply verify_sig_iff in E. tauto. }
  assert (Hvf : forall p sg, verify_fd L K p sg = false).
  { intros p sg. destruct (verify_fd L K p sg) eqn:E; [|reflexivity]. apply verify_fd_iff in E. tauto. }
  destruct (if is_enveloped L raw then _ else _) as [[enc sig]| |]; try discriminate. cbn [bind] in H.
  destruct det.
  - rewrite Hvf in H. destruct (bp_trust_env pr || excl); discriminate.
  - rewrite Hvs in H. discriminate.
Qed.

(** signing with a keyring only returns signatures which that keyring accepts *)
Definition sign_conf (K : keyconf) (signing : option string) : keyconf :=
  mkKeyconf (match signing with Some s => Some s | None => k_path K end) (match signing with Some _ => None | None => k_dir K end)
    (k_crl K) (k_partial K) (k_purpose K) (k_cns K) (k_signing_time K) false.

Lemma sign_check_ok : forall L P K signing detached content sig out,
  honest L P -> sign_check L K signing detached content sig = Some out ->
  (forall p, signing = Some p -> p <> "") -> (signing = None -> k_path K <> Some "" /\ k_dir K <> Some "") ->
  (k_path K <> None \/ k_dir K <> None \/ signing <> None) ->
  out = sig /\ exists c x, ssl_parse L sig = Some c /\
    (if detached then cs_content c = None /\ signed_by L P (sign_conf K signing) c x content
     else exists m, cs_content c = Some m /\ signed_by L P (sign_conf K signing) c x m).
Proof.
  intros L P K signing detached content sig out Hh H Hs1 Hs2 Hk.
  assert (Hst : forall st, setup_store L K (match signing with Some s => Some s | None => k_path K end)
                             (match signing with Some _ => Some "" | None => k_dir K end) = Some st ->
                           st = conf_store (sign_conf K signing) None).
  { intros st. unfold setup_store, pick, conf_store, sign_conf. cbn. destruct signing as [p|].
    - assert (E : String.eqb p "" = false) by (apply String.eqb_neq, Hs1; reflexivity). rewrite E. cbn.
      destruct (negb _); [discriminate|]. destruct (k_purpose K) as [q|]; [destruct (known_purpose L q); [|discriminate]|];
        intros HH; injection HH as <-; reflexivity.
    - destruct (Hs2 eq_refl) as [Ha Hb].
      assert (E1 : match k_path K with Some s => if String.eqb s "" then None else Some s | None => k_path K end = k_path K).
      { destruct (k_path K) as [s|]; [|reflexivity]. assert (E : String.eqb s "" = false) by (apply String.eqb_neq; intros ->; apply Ha; reflexivity). rewrite E. reflexivity. }
      assert (E2 : match k_dir K with Some s => if String.eqb s "" then None else Some s | None => k_dir K end = k_dir K).
      { destruct (k_dir K) as [s|]; [|reflexivity]. assert (E : String.eqb s "" = false) by (apply String.eqb_neq; intros ->; apply Hb; reflexivity). rewrite E. reflexivity. }
      rewrite E1, E2. destruct (negb _); [discriminate|]. destruct (k_purpose K) as [q|]; [destruct (known_purpose L q); [|discriminate]|];
        intros HH; injection HH as <-; reflexivity. }
  assert (H' : match setup_store L K (match signing with Some s => Some s | None => k_path K end)
                             (match signing with Some _ => Some "" | None => k_dir K end) with
      | None => None
      | Some st =>
          match (if detached then verify_bytes L K st (Some content) false sig else verify_bytes L K st None true sig) with
          | None => None
          | Some (c, st', _) => match get_cert_chain L st' c with Some _ => Some sig | None => None end
          end
      end = Some out).
  { unfold sign_check in H. destruct signing as [p|]; [exact H|]. destruct (k_path K), (k_dir K); try exact H. destruct Hk as [Hk|[Hk|Hk]]; congruence. }
  clear H Hs1 Hs2 Hk.
  destruct (setup_store L K _ _) as [st|]; [|discriminate]. specialize (Hst st eq_refl). subst st.
  set (K' := sign_conf K signing) in *.
  assert (Hcn : forall c, check_signer_cns K c = check_signer_cns K' c) by reflexivity.
  assert (Hfin : forall c data, ssl_parse L sig = Some c -> cs_type c = TSigned ->
     match (if k_signing_time K then match get_signingtime c with Some t => Some (with_time (conf_store K' None) t) | None => None end
                       else Some (conf_store K' None)) with
            | None => False
            | Some st' => cms_verify L st' c data = true /\ check_signer_cns K c = true /\ exists ch, get_cert_chain L st' c = Some ch
            end -> exists x, signed_by L P K' c x data).
  { intros c data Hp Hty Hm.
    destruct (if k_signing_time K then _ else _) as [st'|] eqn:E2; [|contradiction]. destruct Hm as (Hv & Hc & ch & Hch).
    assert (Ht : exists t, time_of K' c = Some t /\ st' = conf_store K' t).
    { unfold time_of. cbn [K' sign_conf k_signing_time]. destruct (k_signing_time K).
      - destruct (get_signingtime c) as [t|]; [|discriminate]. injection E2 as <-. exists (Some t). split; reflexivity.
      - injection E2 as <-. exists None. split; reflexivity. }
    destruct Ht as (t & Ht & ->).
    destruct (proj1 (run_accepted L K' c data t)) as (s & x & Ha).
    { split; [|exact Hty]. exists (conf_store K' t). repeat (split; [first [exact Ht|reflexivity|exact Hv|exact Hc]|]). exists ch; exact Hch. }
    exists x. eapply accepted_signed_by; eauto. }
  destruct (ssl_parse L sig) as [c|] eqn:Ep.
  2:{ unfold verify_bytes in H'. rewrite Ep in H'. destruct detached; discriminate. }
  unfold verify_bytes in H'. rewrite Ep in H'. destruct (cs_type c) eqn:Et; try (destruct detached; discriminate).
  specialize (Hfin c). destruct detached; destruct (cs_content c) as [m|] eqn:Ec; try discriminate.
  - specialize (Hfin content eq_refl Et).
    destruct (if k_signing_time K then _ else _) as [st'|]; [|discriminate].
    destruct (cms_verify L st' c content) eqn:Ev; [|discriminate]. destruct (check_signer_cns K c) eqn:Ecn; [|discriminate].
    destruct (get_cert_chain L st' c) as [ch|] eqn:Ech; [|discriminate]. injection H' as <-.
    split; [reflexivity|]. destruct Hfin as (x & Hx); [eauto|]. exists c, x. split; [reflexivity|]. split; [exact Ec|exact Hx].
  - specialize (Hfin m eq_refl Et).
    destruct (if k_signing_time K then _ else _) as [st'|]; [|discriminate].
    destruct (cms_verify L st' c m) eqn:Ev; [|discriminate]. destruct (check_signer_cns K c) eqn:Ecn; [|discriminate].
    destruct (get_cert_chain L st' c) as [ch|] eqn:Ech; [|discriminate]. injection H' as <-.
    split; [reflexivity|]. destruct Hfin as (x & Hx); [eauto|]. exists c, x. split; [reflexivity|]. exists m. split; [exact Ec|exact Hx].
Qed.

(** 'rauc resign --append': the bundle with the additional signature is refused by everyone *)
Lemma append_refuted : forall L K K' raw raw' c inter y s,
  ssl_parse L raw = Some c -> ssl_parse L raw' = Some (append_signer c inter y s) ->
  (exists m, verify_sig L K raw = Some m) \/ (exists p, verify_fd L K p raw = true) ->
  verify_sig L K' raw' = None /\ forall p, verify_fd L K' p raw' = false.
Proof.
  intros L K K' raw raw' c inter y s Hp Hp' Hacc.
  assert (Hs : exists s0, cs_signers c = [s0]).
  { destruct Hacc as [(m & H)|(p & H)].
    - apply verify_sig_iff in H. destruct H as (_ & c' & s0 & x & t & Hc & _ & _ & Hs & _). assert (c' = c) by congruence. subst. eauto.
    - apply verify_fd_iff in H. destruct H as (_ & _ & _ & c' & s0 & x & t & Hc & _ & _ & Hs & _). assert (c' = c) by congruence. subst. eauto. }
  destruct Hs as (s0 & Hs). split.
  - destruct (verify_sig L K' raw') eqn:E; [|reflexivity]. apply verify_sig_iff in E.
    destruct E as (_ & c' & s1 & x & t & Hc & _ & _ & Hs1 & _). assert (c' = append_signer c inter y s) by congruence. subst c'.
    cbn in Hs1. rewrite Hs in Hs1. discriminate.
  - intros p. destruct (verify_fd L K' p raw') eqn:E; [|reflexivity]. apply verify_fd_iff in E.
    destruct E as (_ & _ & _ & c' & s1 & x & t & Hc & _ & _ & Hs1 & _). assert (c' = append_signer c inter y s) by congruence. subst c'.
    cbn in Hs1. rewrite Hs in Hs1. discriminate.
Qed.
