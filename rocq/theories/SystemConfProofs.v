(** Proofs for C80. *)
From Coq Require Import Permutation.
From Verif Require Import Base BaseLemmas Slot Image Handlers KeyFile KeyFileLemmas Hex Semver Manifest Bundle BundleSpec Install InstallSpec InstallRun InstallRunSpec
  Gates GatesSpec Signature SignatureSpec SignatureProofs EndToEndSpec EndToEndProofs.
From Verif Require Import Config ConfigSpec ConfigFormats ConfigParents ConfigRead ConfigProofs ConfigLoad ConfigFinal Context ContextSpec ContextProofs SystemConf SystemConfSpec.
Open Scope list_scope.

(** * the [keyring] section *)
Lemma get_bool_wf g U l kf k d a kf' : at_ g U l kf -> mem U k = false -> get_bool g k d kf = Ok (a, kf') ->
  forall v, assoc k l = Some v -> on (Some v) \/ off (Some v).
Proof.
  intros H HU E v HV. apply mbind_inv in E as (b & kf1 & E1 & _). unfold peek_bool in E1. rewrite H, assoc_drop, HV in E1 by assumption.
  destruct (bool_value v) as [b'|] eqn:BV; [|discriminate]. unfold bool_value in BV. unfold on, off.
  destruct (String.eqb_spec v "true") as [->|]; [auto|]. destruct (String.eqb_spec v "1") as [->|]; [auto|].
  destruct (String.eqb_spec v "false") as [->|]; [auto|]. destruct (String.eqb_spec v "0") as [->|]; [auto|]. discriminate.
Qed.

Definition keyring_sem (kf : keyfile) (k : keyringcfg) : Prop :=
  Config.k_path k = file_string kf "keyring" "path" /\ k_directory k = file_string kf "keyring" "directory" /\
  k_check_crl k = file_bool kf "keyring" "check-crl" false /\ k_partial_chain k = file_bool kf "keyring" "allow-partial-chain" false /\
  Config.k_signing_time k = file_bool kf "keyring" "use-bundle-signing-time" false /\
  k_check_purpose k = config_purpose (kf_get kf "keyring" "check-purpose") /\
  k_allowed_cns k = (match kf_get kf "keyring" "allowed-signer-cns" with Some v => Some (value_list v) | None => None end) /\
  kf_get kf "keyring" "check-purpose" <> Some "" /\
  (forall key v, In key ["check-crl"; "allow-partial-chain"; "use-bundle-signing-time"] -> kf_get kf "keyring" key = Some v -> on (Some v) \/ off (Some v)).

Lemma keyring_inv kf k kf' : parse_keyring kf = Ok (k, kf') -> keyring_sem kf k.
Proof.
  intros E. unfold parse_keyring, section in E. unfold keyring_sem, file_string, file_bool, kf_get, has_group in *.
  destruct (kf_group kf "keyring") as [l|] eqn:G.
  2:{ apply Ok_inj in E. injection E as <- _. cbn. repeat split; try discriminate. }
  apply mbind_inv in E as (a & kfm & E & F). apply mbind_inv in F as (u & kfn & _ & F). apply ret_inv in F as (-> & _).
  assert (H : at_ "keyring" [] l kf) by (unfold at_; now rewrite drop_nil).
  rd E H. rd E H.
  assert (W1 : forall v, assoc "check-crl" l = Some v -> on (Some v) \/ off (Some v)).
  { pose proof E as E'. apply mbind_inv in E' as (b1 & kk & E1 & _). intros v. eapply get_bool_wf; [exact H| |exact E1]; reflexivity. }
  rd E H.
  assert (W2 : forall v, assoc "allow-partial-chain" l = Some v -> on (Some v) \/ off (Some v)).
  { pose proof E as E'. apply mbind_inv in E' as (b1 & kk & E1 & _). intros v. eapply get_bool_wf; [exact H| |exact E1]; reflexivity. }
  rd E H.
  assert (W3 : forall v, assoc "use-bundle-signing-time" l = Some v -> on (Some v) \/ off (Some v)).
  { pose proof E as E'. apply mbind_inv in E' as (b1 & kk & E1 & _). intros v. eapply get_bool_wf; [exact H| |exact E1]; reflexivity. }
  rd E H. rd E H. rd E H. apply ret_inv in E as (-> & _).
  cbn [Config.k_path k_directory k_check_crl k_partial_chain Config.k_signing_time k_check_purpose k_allowed_cns].
  do 5 (split; [reflexivity|]). split; [|split; [reflexivity|split]].
  - rewrite Q. unfold config_purpose, opt_is. destruct (assoc "check-purpose" l) as [p|]; [|reflexivity]. cbn. rewrite String.eqb_sym || idtac.
    destruct (String.eqb_spec p "codesign") as [->|NE]; [reflexivity|]. destruct (String.eqb_spec "codesign" p) as [<-|]; [contradiction|reflexivity].
  - unfold v_str in Q. destruct (assoc "check-purpose" l) as [[|c r]|]; congruence.
  - intros key v [<-|[<-|[<-|[]]]]; auto.
Qed.

Lemma parse_config_keyring o1 o2 kf c kf' : parse_config o1 o2 kf = Ok (c, kf') -> keyring_sem kf (f_keyring c).
Proof.
  intros E. unfold parse_config in E. apply mbind_inv in E as (y & k0 & EY & E). apply mbind_inv in E as (kr & k1 & E1 & E).
  repeat (apply mbind_inv in E as (? & ? & ? & E)). apply ret_inv in E as (-> & _). cbn [f_keyring].
  destruct (touches_system _ _ _ EY) as (P0 & _). apply keyring_inv in E1.
  assert (G : forall k, kf_get k0 "keyring" k = kf_get kf "keyring" k).
  { intros k. unfold kf_get. rewrite P0; [reflexivity|]. intros [K|K]; discriminate K. }
  unfold keyring_sem, file_string, file_bool in *. rewrite !G in E1. 
  destruct E1 as (A1 & A2 & A3 & A4 & A5 & A6 & A7 & A8 & A9). repeat (split; [assumption|]).
  intros key v HI HV. apply (A9 key v HI). now rewrite G.
Qed.

(** the text *)
Lemma file_text cl kf g k : file_string (apply_overrides (cl_overrides cl) kf) g k = nonempty (text cl kf g k).
Proof. unfold file_string, nonempty, text. rewrite c54_override_ok. destruct (match last_override (cl_overrides cl) g k with Some v => Some v | None => kf_get kf g k end) as [[|]|]; reflexivity. Qed.

(** the configuration of a context *)
Lemma configure_text : forall o1 o2 o3 present files cl x kf, configure o1 o2 o3 present files cl = Ok x -> config_text files x kf ->
  exists kf' k, (forall g key, g <> "system" -> kf_get kf' g key = text cl kf g key) /\ parse_config o1 o2 kf' = Ok (x_config x, k).
Proof.
  intros o1 o2 o3 present files cl x kf H T. unfold config_text in T. destruct (x_source x) as [p|] eqn:SRC.
  - destruct (c54_file_ok _ _ _ _ _ _ _ _ H SRC) as (_ & kf1 & F & L). assert (kf1 = kf) as -> by congruence.
    apply load_inv in L as (k & E & _). exists (apply_overrides (cl_overrides cl) kf), k. split; [|exact E].
    intros g key _. apply c54_override_ok.
  - destruct (c54_defaults_ok _ _ _ _ _ _ _ H SRC) as (_ & _ & D). unfold default_config in D.
    destruct (parse_config o1 o2 (apply_overrides (cl_overrides cl) [("system", [])])) as [[c k]| |] eqn:E; try discriminate. cbn [bind] in D. apply Ok_inj in D. subst c.
    exists (apply_overrides (cl_overrides cl) [("system", [])]), k. split; [|exact E].
    intros g key NS. rewrite c54_override_ok. unfold text. subst kf. destruct (last_override _ _ _); [reflexivity|].
    unfold kf_get, kf_group. cbn [assoc]. destruct (String.eqb_spec g "system"); [contradiction|]. destruct (String.eqb_spec "system" g); [congruence|reflexivity].
Qed.
Lemma configure_keyring o1 o2 o3 present files cl x kf : configure o1 o2 o3 present files cl = Ok x -> config_text files x kf ->
  exists kf', (forall key, kf_get kf' "keyring" key = text cl kf "keyring" key) /\ keyring_sem kf' (f_keyring (x_config x)).
Proof.
  intros H T. destruct (configure_text _ _ _ _ _ _ _ _ H T) as (kf' & k & G & E). exists kf'. split; [intros key; apply G; discriminate|].
  exact (parse_config_keyring _ _ _ _ _ E).
Qed.

Lemma on_bool o : (match o with Some v => String.eqb v "true" || String.eqb v "1" | None => false end) = true <-> on o.
Proof.
  unfold on. destruct o as [v|]; [|split; [discriminate|intros [K|K]; discriminate]].
  rewrite orb_true_iff, !String.eqb_eq. split; intros [K|K]; [left|right|left|right]; congruence.
Qed.
Lemma off_bool o : (match o with Some v => String.eqb v "true" || String.eqb v "1" | None => false end) = false <-> ~ on o.
Proof. rewrite <- on_bool. destruct o as [v|]; [destruct (_ || _)|]; split; congruence. Qed.

Lemma trusts_iff : forall o1 o2 o3 present files cl x kf P no_time stime c rest,
  configure o1 o2 o3 present files cl = Ok x -> config_text files x kf ->
  (trusted_by P (keyconf_of x no_time) stime c rest <-> text_trusts P cl kf no_time stime c rest).
Proof.
  intros o1 o2 o3 present files cl x kf P no_time stime c rest H T.
  destruct (configure_keyring _ _ _ _ _ _ _ _ H T) as (kf' & G & (A1 & A2 & A3 & A4 & A5 & A6 & A7 & A8 & A9)).
  destruct (c54_cmdline_ok _ _ _ _ _ _ _ H) as (_ & _ & K1 & K2 & K3 & K4).
  unfold file_string, file_bool in *. rewrite !G in *.
  assert (KP : x_keyring x = keyring_file cl kf).
  { unfold keyring_file. destruct (cl_keyring cl) as [k|]; [now apply K1|]. rewrite K2, A1 by reflexivity. unfold nonempty. destruct (text cl kf "keyring" "path") as [[|]|]; reflexivity. }
  assert (KD : x_keydir x = keyring_dir cl kf).
  { unfold keyring_dir. destruct (cl_keydir cl) as [k|]; [now apply K3|]. rewrite K4, A2 by reflexivity. unfold nonempty. destruct (text cl kf "keyring" "directory") as [[|]|]; reflexivity. }
  unfold trusted_by, text_trusts, keyconf_of. cbn [Signature.k_path k_dir k_partial Signature.k_signing_time k_no_time k_crl k_purpose].
  rewrite KP, KD, A3, A4, A5, A6.
  assert (S1 : forall o, (match o with Some v => String.eqb v "true" || String.eqb v "1" | None => false end) = true <-> on o) by apply on_bool.
  assert (S2 : forall o, (match o with Some v => String.eqb v "true" || String.eqb v "1" | None => false end) = false <-> ~ on o) by apply off_bool.
  rewrite !S1, !S2.
  assert (PU : ((config_purpose (text cl kf "keyring" "check-purpose") = Some "codesign-rauc" -> code_signer c /\ Forall code_ca rest) /\
     (forall p, p = match config_purpose (text cl kf "keyring" "check-purpose") with Some p => p | None => "smimesign" end -> p <> "codesign-rauc" ->
        p_purpose P p c false = true /\ Forall (fun y => p_purpose P p y true = true) rest)) <->
     match text cl kf "keyring" "check-purpose" with
     | None => p_purpose P "smimesign" c false = true /\ Forall (fun y => p_purpose P "smimesign" y true = true) rest
     | Some p =>
         (p = "codesign" \/ p = "codesign-rauc" -> code_signer c /\ Forall code_ca rest) /\
         (p <> "codesign" -> p <> "codesign-rauc" -> p_purpose P p c false = true /\ Forall (fun y => p_purpose P p y true = true) rest)
     end).
  { destruct (text cl kf "keyring" "check-purpose") as [p|]; cbn [config_purpose].
    - destruct (String.eqb_spec p "codesign") as [->|NE].
      + split; intros [X Y]; split; auto; intros; congruence.
      + split; intros [X Y]; split.
        * intros [E|E]; [contradiction|]. apply X. congruence.
        * intros _ N2. apply Y; [reflexivity|exact N2].
        * intros E. apply X. right. congruence.
        * intros q -> N2. now apply Y.
    - split; [intros [_ Y]; apply Y; [reflexivity|discriminate]|]. intros Y. split; [discriminate|]. intros q -> _. exact Y. }
  tauto.
Qed.
Lemma names_iff : forall o1 o2 o3 present files cl x kf no_time c,
  configure o1 o2 o3 present files cl = Ok x -> config_text files x kf ->
  (cn_allowed (keyconf_of x no_time) c <-> text_allows_name cl kf c).
Proof.
  intros o1 o2 o3 present files cl x kf no_time c H T.
  destruct (configure_keyring _ _ _ _ _ _ _ _ H T) as (kf' & G & (A1 & A2 & A3 & A4 & A5 & A6 & A7 & A8 & A9)).
  unfold cn_allowed, text_allows_name, keyconf_of. cbn [k_cns]. rewrite A7, G.
  destruct (text cl kf "keyring" "allowed-signer-cns") as [v|].
  - split; [intros X w E; injection E as <-; exact X|intros X; now apply X].
  - split; [discriminate|auto].
Qed.
Lemma signed_iff : forall o1 o2 o3 present files cl x kf L P no_time cm data,
  configure o1 o2 o3 present files cl = Ok x -> config_text files x kf ->
  ((exists c, signed_by L P (keyconf_of x no_time) cm c data) <-> text_signed L P cl kf no_time cm data).
Proof.
  intros o1 o2 o3 present files cl x kf L P no_time cm data H T. split.
  - intros (c & TS & s & S1 & S2 & S3 & (rest & TR) & CN). split; [exact TS|]. exists s, c, rest. repeat (split; [assumption|]).
    split; [eapply trusts_iff; eauto|eapply names_iff; eauto].
  - intros (TS & s & c & rest & S1 & S2 & S3 & TR & CN). exists c. split; [exact TS|]. exists s. repeat (split; [assumption|]).
    split; [exists rest; eapply trusts_iff; eauto|eapply names_iff; eauto].
Qed.

(** * formats *)
Lemma format_text : forall o1 o2 o3 present files cl x p kf key version f, configure o1 o2 o3 present files cl = Ok x ->
  x_source x = Some p -> files p = CKeyFile kf -> NoDup (kf_groups kf) ->
  (bc_allowed (bconf_of x key version) f = true <-> text_allows_format cl kf f).
Proof.
  intros o1 o2 o3 present files cl x p kf key version f H SRC F ND.
  destruct (c54_file_ok _ _ _ _ _ _ _ _ H SRC) as (_ & kf1 & F1 & L). assert (kf1 = kf) as -> by congruence.
  pose proof (c30_load_ok _ _ _ _ _ (apply_groups (cl_overrides cl) kf ND) L) as C.
  rewrite file_text in C.
  cbn [bconf_of bc_allowed]. unfold text_allows_format. destruct (nonempty (text cl kf "system" "bundle-formats")) as [v|].
  - destruct C as (_ & toks & FT & C). assert (B3 : (format_bit f <? 3)%N = true) by (destruct f; reflexivity).
    assert (UNIQ : forall toks', Forall2 is_ftoken (words v) toks' -> toks' = toks).
    { clear C. intros toks' FT'. revert toks' FT'. induction FT as [|w tk ws tks I1 FT IH]; intros toks' FT'; inversion FT' as [|w' tk' ws' tks' I2 FT2]; subst; [reflexivity|].
      f_equal; [|now apply IH]. clear - I1 I2. unfold is_ftoken, ftokens in *. cbn [In] in I1, I2.
      repeat destruct I1 as [I1|I1]; try contradiction; injection I1 as <- <-; repeat destruct I2 as [I2|I2]; try contradiction; try discriminate; congruence. }
    split.
    + intros TB v0 EV. injection EV as <-. exists toks. split; [exact FT|]. destruct C as [(NE & FS & IFF)|(FS & IFF)].
      * left. split; [exact FS|]. now apply IFF.
      * right. split; [exact FS|]. rewrite IFF, B3 in TB. exact TB.
    + intros X. destruct (X v eq_refl) as (toks' & FT' & K). apply UNIQ in FT' as ->. destruct C as [(NE & FS & IFF)|(FS & IFF)].
      * apply IFF. destruct K as [(_ & K)|(NS & K)]; [exact K|]. destruct toks as [|tk r]; [congruence|].
        inversion FS; subst. inversion NS; subst. contradiction.
      * rewrite IFF, B3. destruct K as [(FS' & K)|(_ & K)]; [|exact K]. destruct toks as [|tk r]; [destruct K|]. inversion FS; subst. inversion FS'; subst. contradiction.
  - split; [discriminate|]. intros _. apply C. destruct f; reflexivity.
Qed.

(** * accepting bundles *)
Lemma c80_signed_ok : forall o1 o2 o3 present files cl x p kf L P load inner verity key version pr (remote : bool) f excl access no_time b,
  configure o1 o2 o3 present files cl = Ok x -> x_source x = Some p -> files p = CKeyFile kf -> NoDup (kf_groups kf) ->
  honest L P -> bp_verify pr = true ->
  check L (keyconf_of x no_time) load inner verity (bconf_of x key version) pr remote f excl access = Ok b ->
  exists cm data, text_signed L P cl kf no_time cm data /\
    match b_manifest b with
    | None => remote = false /\ cs_content cm = None /\ data = firstn (b_size b) f /\ text_allows_format cl kf F_PLAIN
    | Some m => cs_content cm = Some data /\ load data = Ok m /\ mf_format m <> F_PLAIN /\ text_allows_format cl kf (mf_format m)
    end.
Proof.
  intros o1 o2 o3 present files cl x p kf L P load inner verity key version pr remote f excl access no_time b H SRC F ND HH HV CB.
  assert (T : config_text files x kf) by (unfold config_text; now rewrite SRC).
  pose proof (checked_format _ _ _ _ _ _ _ _ CB) as FA.
  destruct (check_signed_ok _ P _ _ _ _ _ _ _ _ _ _ _ HH CB HV) as (size & raw & sig & c & y & O & D & PS & K).
  assert (KB : b_size b = size /\ (forall m, b_manifest b = Some m -> mf_format m <> F_PLAIN) /\ (b_manifest b = None -> is_detached L raw = Some true) /\
     (b_manifest b <> None -> is_detached L raw = Some false)).
  { unfold check, check_bundle in CB. rewrite HV in CB. cbn [andb] in CB. destruct (negb _); [discriminate|].
    change (match remote with true => open_remote (bc_maxsig (bconf_of x key version)) f | false => open_local (bc_maxsig (bconf_of x key version)) f end) with
      (if remote then open_remote (bc_maxsig (bconf_of x key version)) f else open_local (bc_maxsig (bconf_of x key version)) f) in CB.
    rewrite O in CB. cbn [bind] in CB. cbn [sig_crypto cm_detached] in CB.
    destruct (is_detached L raw) as [det|]; [|discriminate]. cbn [of_option bind] in CB. destruct (det && remote); [discriminate|].
    apply bind_ok in CB as ([enc sg] & _ & CB). apply bind_ok in CB as ([b0 mb] & E0 & CB). apply bind_ok in CB as (m & EM & CB).
    destruct (negb (format_allowed _ m)); [discriminate|]. apply Ok_inj in CB. subst b. cbn [b_size b_manifest].
    assert (B0 : b_size b0 = size /\ (det = true <-> mb = None)).
    { destruct det.
      - destruct (bp_trust_env pr || excl); [|discriminate]. destruct (cm_verify_fd _ _ _); [|discriminate]. apply Ok_inj in E0. injection E0 as <- <-. cbn. intuition congruence.
      - destruct (cm_verify _ _) as [mm|]; [|discriminate]. apply Ok_inj in E0. injection E0 as <- <-. cbn. intuition congruence. }
    destruct B0 as (BS & BD). split; [exact BS|].
    destruct mb as [mb|].
    - destruct det; [discriminate (proj1 BD eq_refl)|]. apply bind_ok in EM as (m1 & _ & EM). destruct (bformat_eqb (mf_format m1) F_PLAIN) eqn:BF; [discriminate|].
      apply Ok_inj in EM. subst m. split; [|split; [discriminate|reflexivity]]. intros m E. injection E as <-. intros X. rewrite X in BF. discriminate.
    - rewrite (proj2 BD eq_refl) in *. apply Ok_inj in EM. subst m. split; [discriminate|]. split; [reflexivity|congruence]. }
  destruct KB as (KS & KM & KD & KN).
  assert (FT := fun f0 => proj1 (format_text _ _ _ _ _ _ _ _ _ key version f0 H SRC F ND)).
  destruct K as [(RM & CN & SB)|(mb & mf & CN & SB & LD & EM)].
  - exists c, (firstn size f). split; [eapply signed_iff; eauto|].
    destruct (b_manifest b) as [m|] eqn:EB.
    + exfalso. (* a detached signature is not accepted as an inline one *)
      assert (DT : is_detached L raw = Some false) by (apply KN; discriminate).
      unfold check, check_bundle in CB. rewrite HV in CB. cbn [andb] in CB. destruct (negb _); [discriminate|].
      change (match remote with true => open_remote (bc_maxsig (bconf_of x key version)) f | false => open_local (bc_maxsig (bconf_of x key version)) f end) with
        (if remote then open_remote (bc_maxsig (bconf_of x key version)) f else open_local (bc_maxsig (bconf_of x key version)) f) in CB.
      rewrite O in CB. cbn [bind] in CB. cbn [sig_crypto cm_detached cm_enveloped cm_decrypt cm_verify] in CB. rewrite DT in CB. cbn [of_option bind andb] in CB.
      apply bind_ok in CB as ([enc sg] & ES & CB).
      assert (sg = sig).
      { destruct (is_enveloped L raw).
        - destruct (bc_key _); [|discriminate]. rewrite D in ES. apply Ok_inj in ES. congruence.
        - apply Ok_inj in ES. congruence. }
      subst sg. apply bind_ok in CB as ([b0 mb] & E0 & _). destruct (verify_sig L (keyconf_of x no_time) sig) as [mm|] eqn:VS; [|discriminate].
      apply verify_sig_iff in VS as (c' & s' & x' & t' & _ & PS' & CN' & _). congruence.
    + rewrite KS. split; [exact RM|]. split; [exact CN|]. split; [reflexivity|]. apply FT. exact FA.
  - exists c, mb. split; [eapply signed_iff; eauto|]. rewrite EM. split; [exact CN|]. split; [exact LD|].
    assert (NF := KM mf EM). split; [exact NF|]. apply FT. rewrite EM in FA. cbn [format_allowed] in FA. destruct (mf_format mf); [contradiction|exact FA|exact FA].
Qed.

(** * the other direction *)
Lemma c80_accepts_ok : forall o1 o2 o3 present files cl x p kf L P load inner verity key version pr (remote : bool) f excl access no_time
    size raw cm s c rest m mf,
  configure o1 o2 o3 present files cl = Ok x -> x_source x = Some p -> files p = CKeyFile kf -> NoDup (kf_groups kf) ->
  complete L P -> ssl_load L (keyring_file cl kf) (keyring_dir cl kf) = true ->
  (forall q, text cl kf "keyring" "check-purpose" = Some q -> q = "codesign" \/ q = "codesign-rauc" \/ ssl_purpose L q = true) ->
  keyring_file cl kf <> None \/ keyring_dir cl kf <> None ->
  bp_verify pr = true ->
  (if remote then open_remote (y_max_signature (f_system (x_config x))) f else open_local (y_max_signature (f_system (x_config x))) f) = Ok (size, raw) ->
  ssl_parse L raw = Some cm -> cs_type cm = TSigned -> cs_content cm = Some m -> cs_signers cm = [s] -> si_cert s = Some c ->
  ssl_sig L s m = true -> text_trusts P cl kf no_time (signing_time s) c rest -> text_allows_name cl kf c ->
  (forall y, In y rest -> In y (cs_certs cm) \/ p_keyring P (keyring_file cl kf) (keyring_dir cl kf) y = true) ->
  load m = Ok mf -> mf_format mf <> F_PLAIN -> text_allows_format cl kf (mf_format mf) ->
  exists b, check L (keyconf_of x no_time) load inner verity (bconf_of x key version) pr remote f excl access = Ok b /\
    b_manifest b = Some mf /\ b_sig_verified b = true.
Proof.
  intros o1 o2 o3 present files cl x p kf L P load inner verity key version pr remote f excl access no_time size raw cm s c rest m mf
    H SRC F ND CO SL SP KR HV O PS TS CC CS SC SG TR NM INT LD NF FM.
  assert (T : config_text files x kf) by (unfold config_text; now rewrite SRC).
  destruct (configure_keyring _ _ _ _ _ _ _ _ H T) as (kf' & G & (A1 & A2 & A3 & A4 & A5 & A6 & A7 & A8 & A9)).
  destruct (c54_cmdline_ok _ _ _ _ _ _ _ H) as (_ & _ & K1 & K2 & K3 & K4).
  unfold file_string, file_bool in *. rewrite !G in *.
  assert (KP : x_keyring x = keyring_file cl kf).
  { unfold keyring_file. destruct (cl_keyring cl) as [k|]; [now apply K1|]. rewrite K2, A1 by reflexivity. unfold nonempty. destruct (text cl kf "keyring" "path") as [[|]|]; reflexivity. }
  assert (KD : x_keydir x = keyring_dir cl kf).
  { unfold keyring_dir. destruct (cl_keydir cl) as [k|]; [now apply K3|]. rewrite K4, A2 by reflexivity. unfold nonempty. destruct (text cl kf "keyring" "directory") as [[|]|]; reflexivity. }
  eapply (check_complete_ok L P (keyconf_of x no_time) load inner verity (bconf_of x key version) pr remote f excl access size raw cm s c rest m mf); auto.
  - split.
    + cbn [keyconf_of Signature.k_path k_dir]. now rewrite KP, KD.
    + cbn [keyconf_of k_purpose]. intros q Hq. rewrite A6 in Hq. unfold config_purpose in Hq.
      destruct (text cl kf "keyring" "check-purpose") as [q0|]; [|discriminate]. injection Hq as <-.
      destruct (String.eqb_spec q0 "codesign") as [->|NE]; [now left|]. destruct (SP q0 eq_refl) as [E|[E|E]]; [contradiction|now left|now right].
  - cbn [bconf_of bc_keyring]. rewrite KP, KD. destruct (keyring_file cl kf); [reflexivity|]. destruct (keyring_dir cl kf); [reflexivity|]. destruct KR; congruence.
  - eapply names_iff; eauto.
  - eapply trusts_iff; eauto.
  - intros y Hy. cbn [keyconf_of Signature.k_path k_dir]. rewrite KP, KD. now apply INT.
  - eapply format_text; eauto.
Qed.

(** values which do not make sense are refused *)
Lemma c80_values_ok : forall o1 o2 o3 present files cl x kf, configure o1 o2 o3 present files cl = Ok x -> config_text files x kf ->
  (forall key v, In key ["check-crl"; "allow-partial-chain"; "use-bundle-signing-time"] -> text cl kf "keyring" key = Some v -> on (Some v) \/ off (Some v)) /\
  text cl kf "keyring" "check-purpose" <> Some "".
Proof.
  intros o1 o2 o3 present files cl x kf H T.
  destruct (configure_keyring _ _ _ _ _ _ _ _ H T) as (kf' & G & (A1 & A2 & A3 & A4 & A5 & A6 & A7 & A8 & A9)).
  split; [|now rewrite <- G]. intros key v HI HV. apply (A9 key v HI). now rewrite G.
Qed.

(** * slots *)
Lemma c80_slots_ok : forall o1 o2 o3 present files cl x p kf var, configure o1 o2 o3 present files cl = Ok x ->
  x_source x = Some p -> files p = CKeyFile kf -> NoDup (kf_groups kf) ->
  (forall l, Permutation (o1 l) l) -> (forall l, Permutation (o2 l) l) -> (forall l, Permutation (o3 l) l) ->
  let slots := cf_slots (sysconf_of x var) in
  unique_names slots /\ wf_parents slots /\ unique_bootnames slots /\ (forall s, In s slots -> slot_text cl kf s).
Proof.
  intros o1 o2 o3 present files cl x p kf var H SRC F ND PE1 PE2 PE3 slots.
  destruct (c54_file_ok _ _ _ _ _ _ _ _ H SRC) as (_ & kf1 & F1 & L). assert (kf1 = kf) as -> by congruence.
  pose proof (apply_groups (cl_overrides cl) kf ND) as ND'. set (kf' := apply_overrides (cl_overrides cl) kf) in *.
  destruct (c47_slots_ok _ _ _ _ _ ND' L) as (NN & NG & NS).
  pose proof (c29_roots_ok _ _ _ _ _ ND' PE1 PE2 L) as RT.
  pose proof (c31_ok _ _ _ _ _ ND' PE3 L) as BN.
  set (c := x_config x) in *. unfold slots. cbn [sysconf_of cf_slots]. fold c.
  assert (IN : forall s, In s (map (slot_of_conf (f_parent c)) (f_slots c)) -> exists s0, In s0 (f_slots c) /\ s = slot_of_conf (f_parent c) s0).
  { intros s Hs. apply in_map_iff in Hs as (s0 & <- & Hs). eauto. }
  assert (FS : forall g k, file_string kf' g k = nonempty (text cl kf g k)) by (intros; apply file_text).
  assert (PAR : forall s0, In s0 (f_slots c) -> In ("slot." ++ c_name s0)%string (kf_groups kf')) by (intros s0 Hs; apply NG; now apply in_map).
  split; [|split; [|split]].
  - unfold unique_names. rewrite map_map. cbn [slot_of_conf sl_name]. exact NN.
  - intros s q Hs HP. destruct (IN s Hs) as (s0 & I0 & ->). cbn [slot_of_conf sl_parent] in HP.
    destruct (RT _ (PAR _ I0)) as (R1 & R2). destruct (file_string kf' ("slot." ++ c_name s0) "parent") as [q0|] eqn:FP.
    + destruct (R2 q0 FP) as (_ & root & RP & _ & RG & _ & RN). assert (root = q) as -> by congruence.
      apply NG in RG. apply in_map_iff in RG as (r0 & RE & RI). exists (slot_of_conf (f_parent c) r0). split; [now apply in_map|]. cbn. split; [exact RE|now rewrite RE].
    + rewrite R1 in HP; [discriminate|]. intros q1 Q1. unfold file_parent in Q1. congruence.
  - intros s t b Hs Ht Es Et. destruct (IN s Hs) as (s0 & I0 & ->). destruct (IN t Ht) as (t0 & J0 & ->). cbn in Es, Et |- *.
    destruct (NS s0 I0) as (_ & _ & _ & B0 & _). destruct (NS t0 J0) as (_ & _ & _ & B1 & _).
    apply (BN (c_name s0) (c_name t0) b); congruence.
  - intros s Hs. destruct (IN s Hs) as (s0 & I0 & ->). destruct (NS s0 I0) as ((idx & N1 & N2 & N3) & DV & TY & BO & AM & RO & _).
    exists idx. cbn [slot_of_conf sl_name sl_class sl_device sl_type sl_bootname sl_readonly sl_parent]. split; [exact N1|]. split; [exact N2|]. split; [exact N3|]. cbv zeta.
    rewrite FS in DV, TY, BO. unfold nonempty in DV.
    assert (DV2 : text cl kf ("slot." ++ c_name s0) "device" = Some (c_device s0) /\ c_device s0 <> "").
    { destruct (text cl kf ("slot." ++ c_name s0) "device") as [[|a r]|]; try discriminate DV. split; [congruence|]. injection DV as <-. discriminate. }
    split; [apply DV2|]. split; [apply DV2|]. split; [exact TY|]. split; [exact BO|]. split.
    + rewrite RO. unfold file_bool, kf'. rewrite c54_override_ok. apply on_bool.
    + destruct (RT _ (PAR _ I0)) as (R1 & R2). rewrite <- FS. destruct (file_string kf' ("slot." ++ c_name s0) "parent") as [q0|] eqn:FP.
      * destruct (R2 q0 FP) as (_ & root & RP & _). rewrite RP. split; discriminate.
      * split; [reflexivity|]. intros _. apply R1. intros q1 Q1. unfold file_parent in Q1. congruence.
Qed.

(** * from system.conf to the slots *)
Lemma text_vouches : forall B o1 o2 o3 present files cl x kf V P no_time (t : attempt B) m,
  configure o1 o2 o3 present files cl = Ok x -> config_text files x kf -> vf_keys V = keyconf_of x no_time ->
  vouched V P t m -> text_vouched V P cl kf no_time t m.
Proof.
  intros B o1 o2 o3 present files cl x kf V P no_time t m H T VK (size & cm & (EI & c & SB) & K). exists size, cm. split; [exact EI|].
  rewrite VK in SB. destruct SB as [(CN & RM & SB)|(mb & CN & SB)]; rewrite CN in K |- *.
  - split; [exact RM|]. split; [eapply signed_iff; eauto|exact K].
  - split; [eapply signed_iff; eauto|exact K].
Qed.
Lemma fits : forall B o1 o2 o3 present files cl x p kf key version var (t : attempt B) m,
  configure o1 o2 o3 present files cl = Ok x -> x_source x = Some p -> files p = CKeyFile kf -> NoDup (kf_groups kf) ->
  at_conf t = gconf_of x key version var -> gates_open t m -> text_fits cl kf t m.
Proof.
  intros B o1 o2 o3 present files cl x p kf key version var t m H SRC F ND AC (_ & GC & GV).
  destruct (c54_file_ok _ _ _ _ _ _ _ _ H SRC) as (_ & kf1 & F1 & L). assert (kf1 = kf) as -> by congruence.
  pose proof (apply_groups (cl_overrides cl) kf ND) as ND'.
  destruct (c47_system_ok _ _ _ _ _ ND' L) as ((v & YC & FC) & _). rewrite file_text in FC.
  assert (YM : y_min_bundle_version (f_system (x_config x)) = nonempty (text cl kf "system" "min-bundle-version")).
  { apply load_inv in L as (k & E & _). destruct (parse_config_inv _ _ _ _ _ ND' E) as (CS & _). destruct (cs_system _ _ CS) as (l & HG & SS).
    rewrite <- file_text, <- (v_str_file _ _ _ _ HG). apply SS. }
  assert (C1 : gc_compatible (at_conf t) = Some v /\ gc_min_version (at_conf t) = nonempty (text cl kf "system" "min-bundle-version")).
  { rewrite AC. unfold gconf_of. destruct (f_handlers (x_config x)) as [[? ?] ?]. cbn [gc_compatible gc_min_version]. auto. }
  destruct C1 as (C1 & C2). split.
  - destruct (mf_install_check m); [exact GC|]. destruct GC as [GC|GC]; [now left|right]. exists v. rewrite C1 in GC. unfold nonempty in FC.
    destruct (text cl kf "system" "compatible") as [[|a r]|]; try discriminate FC. split; [exact FC|]. split; [|now symmetry]. injection FC as <-. discriminate.
  - intros min HM. rewrite C2, HM in GV. destruct GV as [GV|[GV|(mn & w & GV & MV & SL)]]; [discriminate|now left|right]. injection GV as <-. eauto.
Qed.

Lemma c80_install_ok : forall B o1 o2 o3 present files cl x p kf key version var no_time (bk : backend B) V P (A : attempt B -> Prop) w0 w dev d,
  configure o1 o2 o3 present files cl = Ok x -> x_source x = Some p -> files p = CKeyFile kf -> NoDup (kf_groups kf) ->
  (forall l, Permutation (o1 l) l) -> (forall l, Permutation (o2 l) l) -> (forall l, Permutation (o3 l) l) ->
  honest (vf_ssl V) P -> vf_keys V = keyconf_of x no_time ->
  (forall t, A t -> at_crypto t = vf_crypto V /\ at_backend t = bk /\ at_conf t = gconf_of x key version var /\ steady t) ->
  history A w0 w -> w_dev w dev = Whole d ->
  w_dev w0 dev = Whole d \/
  exists t m s i, A t /\ text_vouched V P cl kf no_time t m /\ text_fits cl kf t m /\ text_allows_format cl kf (mf_format m) /\
    slot_text cl kf s /\ text cl kf ("slot." ++ sl_name s) "device" = Some dev /\ ~ on (text cl kf ("slot." ++ sl_name s) "readonly") /\
    image_for var (mf_images m) (sl_class s) = Some i /\ im_digest i = d.
Proof.
  intros B o1 o2 o3 present files cl x p kf key version var no_time bk V P A w0 w dev d H SRC F ND PE1 PE2 PE3 HH VK HA HI HW.
  assert (T : config_text files x kf) by (unfold config_text; now rewrite SRC).
  destruct (c80_slots_ok _ _ _ _ _ _ _ _ _ var H SRC F ND PE1 PE2 PE3) as (SU & SW & _ & ST).
  assert (SY : gc_sys (gconf_of x key version var) = sysconf_of x var) by (unfold gconf_of; destruct (f_handlers (x_config x)) as [[? ?] ?]; reflexivity).
  assert (BU : gc_bundle (gconf_of x key version var) = bconf_of x key version) by (unfold gconf_of; destruct (f_handlers (x_config x)) as [[? ?] ?]; reflexivity).
  destruct (c76_provenance_ok B bk (sysconf_of x var) V P A w0 w dev d SU SW HH) as [E|(t & m & s & i & At & VO & GO & FM & IN & DV & RO & IM & DG)];
    [|exact HI|exact HW|now left|].
  { intros t At. destruct (HA t At) as (? & ? & AC & ?). rewrite <- SY, <- AC. repeat split; assumption. }
  right. exists t, m, s, i. destruct (HA t At) as (_ & _ & AC & _). split; [exact At|]. split; [eapply text_vouches; eauto|]. split; [eapply fits; eauto|].
  split; [eapply (format_text _ _ _ _ _ _ _ _ _ key version); eauto; rewrite <- BU, <- AC; exact FM|].
  pose proof (ST s IN) as SL. split; [exact SL|]. destruct SL as (idx & N1 & N2 & N3 & DV2 & _ & _ & _ & RO2 & _).
  split; [now rewrite <- DV|]. split; [rewrite <- RO2; congruence|]. auto.
Qed.

Lemma c80_write_ok : forall B o1 o2 o3 present files cl x p kf key version var no_time V P (t : attempt B) realdev bootslot d c,
  configure o1 o2 o3 present files cl = Ok x -> x_source x = Some p -> files p = CKeyFile kf -> NoDup (kf_groups kf) ->
  (forall l, Permutation (o1 l) l) -> (forall l, Permutation (o2 l) l) -> (forall l, Permutation (o3 l) l) ->
  honest (vf_ssl V) P -> vf_keys V = keyconf_of x no_time -> at_crypto t = vf_crypto V -> steady t ->
  at_conf t = gconf_of x key version var ->
  determine_slot_states realdev (Some bootslot) (cf_slots (sysconf_of x var)) = Ok (in_states (at_inp t)) ->
  In (GRun (EWrite d c)) (snd (attempt_run t)) ->
  exists m s i, text_vouched V P cl kf no_time t m /\ text_fits cl kf t m /\ text_allows_format cl kf (mf_format m) /\
    slot_text cl kf s /\ text cl kf ("slot." ++ sl_name s) "device" = Some d /\ ~ on (text cl kf ("slot." ++ sl_name s) "readonly") /\
    (forall booted, In booted (cf_slots (sysconf_of x var)) -> in_states (at_inp t) (sl_name booted) = ST_BOOTED -> sl_parent booted = None ->
       sl_name s <> sl_name booted /\ sl_parent s <> Some (sl_name booted)) /\
    image_for var (mf_images m) (sl_class s) = Some i /\ (c = Torn \/ c = Whole (im_digest i)).
Proof.
  intros B o1 o2 o3 present files cl x p kf key version var no_time V P t realdev bootslot d c H SRC F ND PE1 PE2 PE3 HH VK EC ST AC DS HI.
  assert (T : config_text files x kf) by (unfold config_text; now rewrite SRC).
  destruct (c80_slots_ok _ _ _ _ _ _ _ _ _ var H SRC F ND PE1 PE2 PE3) as (SU & SW & _ & SX).
  assert (SY : gc_sys (at_conf t) = sysconf_of x var) by (rewrite AC; unfold gconf_of; destruct (f_handlers (x_config x)) as [[? ?] ?]; reflexivity).
  assert (BU : gc_bundle (at_conf t) = bconf_of x key version) by (rewrite AC; unfold gconf_of; destruct (f_handlers (x_config x)) as [[? ?] ?]; reflexivity).
  rewrite <- SY in SU, SW, DS, SX |- *.
  destruct (c76_write_ok B V P t realdev bootslot d c HH EC ST SU SW DS HI) as (m & e & s & i & VO & GO & FM & _ & _ & _ & IN & DV & RO & BT & IM & C).
  exists m, s, i. split; [eapply text_vouches; eauto|]. split; [eapply fits; eauto|].
  split; [eapply (format_text _ _ _ _ _ _ _ _ _ key version); eauto; rewrite <- BU; exact FM|].
  pose proof (SX s IN) as SL. split; [exact SL|]. destruct SL as (idx & N1 & N2 & N3 & DV2 & _ & _ & _ & RO2 & _).
  split; [now rewrite <- DV|]. split; [rewrite <- RO2; congruence|]. split; [|rewrite SY in IM; auto].
  intros booted B1 B2 B3. destruct (BT booted B1 B2 B3) as (? & ? & _). auto.
Qed.

Lemma nodup_via {A B C} (f : A -> B) (g : A -> C) l : NoDup (map f l) -> (forall a b, In a l -> In b l -> g a = g b -> f a = f b) -> NoDup (map g l).
Proof.
  induction l as [|a l IH]; cbn [map]; intros N1 HI; [constructor|]. inversion N1 as [|? ? N2 N3 EQ]; clear EQ. constructor.
  - intros K. apply in_map_iff in K as (b & EB & IB). apply N2. rewrite <- (HI b a (or_intror IB) (or_introl eq_refl) EB). now apply in_map.
  - apply IH; [exact N3|]. intros; apply HI; auto using in_cons.
Qed.
Lemma slash_in a t : no_char "/" (a ++ String "/" t) = false.
Proof. induction a as [|c a IH]; [reflexivity|]. cbn. unfold no_char in IH. cbn in IH. rewrite IH. apply andb_false_r. Qed.

(** the system always boots, if the status file is central and devices are not shared *)
Lemma c80_boot_ok : forall B o1 o2 o3 present files cl x p kf key version var (bk : backend B) V (A : attempt B -> Prop) (good : B -> Prop) cand bt w0 w,
  configure o1 o2 o3 present files cl = Ok x -> x_source x = Some p -> files p = CKeyFile kf -> NoDup (kf_groups kf) ->
  (forall l, Permutation (o1 l) l) -> (forall l, Permutation (o2 l) l) -> (forall l, Permutation (o3 l) l) ->
  central_status cl kf -> own_devices cl kf ->
  boot_laws (cf_slots (sysconf_of x var)) good cand bt bk ->
  (forall t, A t -> at_crypto t = vf_crypto V /\ at_backend t = bk /\ at_conf t = gconf_of x key version var /\ steady t /\
     forall m, delivers t m -> proper cand (sysconf_of x var) (with_bundle (at_inp t) m) (at_world t)) ->
  status_true (cf_slots (sysconf_of x var)) w0 -> boot_safe (cf_slots (sysconf_of x var)) good cand bt w0 ->
  history A w0 w ->
  status_true (cf_slots (sysconf_of x var)) w /\
  (exists n, bt (w_boot w) n) /\ forall n, bt (w_boot w) n -> intact (cf_slots (sysconf_of x var)) w n.
Proof.
  intros B o1 o2 o3 present files cl x p kf key version var bk V A good cand bt w0 w H SRC F ND PE1 PE2 PE3 CE OD BL HA HS HB HI.
  destruct (c80_slots_ok _ _ _ _ _ _ _ _ _ var H SRC F ND PE1 PE2 PE3) as (SU & SW & SB & SX).
  assert (SY : gc_sys (gconf_of x key version var) = sysconf_of x var) by (unfold gconf_of; destruct (f_handlers (x_config x)) as [[? ?] ?]; reflexivity).
  assert (HA' : forall t, A t -> on_system V bk (sysconf_of x var) t).
  { intros t At. destruct (HA t At) as (? & ? & AC & ? & _). rewrite <- SY, <- AC. repeat split; assumption. }
  assert (DD : distinct_devices (cf_slots (sysconf_of x var))).
  { apply (nodup_via sl_name sl_device _ SU). intros s1 s2 I1 I2 DE. destruct (SX s1 I1) as (i1 & _ & _ & _ & D1 & _). destruct (SX s2 I2) as (i2 & _ & _ & _ & D2 & _).
    apply (OD (sl_name s1) (sl_name s2) (sl_device s1)); [exact D1|rewrite DE; exact D2]. }
  assert (PS : cf_per_slot (sysconf_of x var) = false).
  { destruct (c54_file_ok _ _ _ _ _ _ _ _ H SRC) as (_ & kf1 & F1 & L). assert (kf1 = kf) as -> by congruence.
    destruct (c47_system_ok _ _ _ _ _ (apply_groups (cl_overrides cl) kf ND) L) as (_ & _ & _ & _ & _ & YS & _).
    rewrite !file_text in YS. cbn [sysconf_of cf_per_slot]. rewrite YS. unfold central_status in CE. apply String.eqb_neq.
    destruct (nonempty (text cl kf "system" "statusfile")) as [v|]; [congruence|].
    destruct (nonempty (text cl kf "system" "data-directory")) as [v|]; [|contradiction].
    intros X. pose proof (slash_in v "central.raucs") as NC. cbn [String.append] in NC. change (String "/" "central.raucs") with "/central.raucs" in NC.
    rewrite X in NC. discriminate NC. }
  split; [eapply c76_status_ok; eauto|]. eapply c76_boot_ok; eauto. intros t At. split; [auto|]. apply (HA t At).
Qed.
