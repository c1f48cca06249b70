From Verif Require Import Base BaseLemmas Image KeyFile Hex Semver Manifest Bundle BundleSpec BundleProofs Signature Resign ResignProofs Gates Recipients RecipientsSpec.
Open Scope list_scope.

Lemma read_certs_spec bl : forall acc cs, read_certs acc bl = Some cs <-> exists l, bl = map PCert l /\ cs = acc ++ l /\ cs <> [].
Proof.
  induction bl as [|[c|] bl IH]; intros acc cs; cbn [read_certs].
  - split.
    + intros H. exists []. rewrite app_nil_r. destruct acc; [discriminate|]. apply Some_inj in H. subst cs. repeat split. discriminate.
    + intros (l & E & -> & N). destruct l; [|discriminate]. rewrite app_nil_r in *. destruct acc; [contradiction|reflexivity].
  - rewrite IH. split.
    + intros (l & -> & -> & N). exists (c :: l). rewrite <- app_assoc in *. auto.
    + intros (l & E & -> & N). destruct l as [|x l]; [discriminate|]. injection E as <- ->. exists l. rewrite <- app_assoc. auto.
  - split; [discriminate|]. intros (l & E & _). destruct l; discriminate.
Qed.

Lemma load_spec files names : forall acc cs, load_recipients files names acc = Some cs ->
  Forall (cert_file files) names /\ forall c, In c cs <-> In c acc \/ exists n l, In n names /\ files n = Some l /\ In (PCert c) l.
Proof.
  induction names as [|n names IH]; intros acc cs H; cbn [load_recipients] in H.
  - apply Some_inj in H. subst cs. split; [constructor|]. intros c. split; [auto|]. intros [X|(n & _ & [] & _)]. exact X.
  - unfold load_certs_from_file in H. destruct (files n) as [bl|] eqn:F; [|discriminate]. destruct (read_certs [] bl) as [l|] eqn:R; [|discriminate].
    apply read_certs_spec in R as (l' & -> & E & N). cbn in E. subst l'. destruct (IH _ _ H) as [A B]. split.
    + constructor; [exists l; auto|exact A].
    + intros c. rewrite B, in_app_iff. split.
      * intros [[X|X]|(n' & l' & X & Y & Z)]; [now left| |].
        -- right. exists n, (map PCert l). split; [now left|]. split; [exact F|]. now apply in_map.
        -- right. exists n', l'. split; [now right|auto].
      * intros [X|(n' & l' & [<-|X] & Y & Z)]; [auto| |].
        -- rewrite F in Y. apply Some_inj in Y. subst l'. apply in_map_iff in Z as (x & E & Hx). injection E as ->. auto.
        -- right. eauto.
Qed.
Lemma load_complete files names : Forall (cert_file files) names -> forall acc, exists cs, load_recipients files names acc = Some cs.
Proof.
  induction 1 as [|n names (l & N & E) _ IH]; intros acc; cbn [load_recipients]; [eauto|].
  unfold load_certs_from_file. rewrite E. assert (R : read_certs [] (map PCert l) = Some l) by (apply read_certs_spec; eauto). rewrite R. apply IH.
Qed.

Lemma check_size cr cf pr f excl access b : (N.of_nat (List.length f) < 2 ^ 64)%N ->
  check_bundle cr cf pr false f excl access = Ok b -> exists raw, open_local (bc_maxsig cf) f = Ok (b_size b, raw) /\ b_size b <= List.length f.
Proof.
  intros HL H. unfold check_bundle in H. destruct (bp_verify pr && negb (bc_keyring cf)); [discriminate|].
  destruct (open_local (bc_maxsig cf) f) as [[size raw]| |] eqn:E; cbn [bind] in H; try discriminate.
  assert (LS : size <= List.length f).
  { pose proof E as E'. apply c35_local_ok in E' as (E1 & E2 & _); [|exact HL]. rewrite firstn_length in E2. lia. }
  exists raw. assert (X : b_size b = size); [|now rewrite X].
  destruct (cm_detached cr raw) as [det|]; cbn [of_option bind] in H; [|discriminate]. rewrite andb_false_r in H.
  destruct (if cm_enveloped cr raw then _ else _) as [[enc sig]| |]; cbn [bind] in H; try discriminate.
  destruct (if bp_verify pr then _ else _) as [[b1 mb]| |] eqn:EB; cbn [bind] in H; try discriminate.
  destruct (match mb with None => _ | Some _ => _ end) as [m| |]; cbn [bind] in H; try discriminate.
  destruct (negb (format_allowed cf m)); [discriminate|]. apply Ok_inj in H. subst b. cbn [b_size].
  destruct (bp_verify pr), det; cbn in EB;
    repeat match type of EB with
    | (if ?c then _ else _) = _ => destruct c; try discriminate
    | match ?c with Some _ => _ | None => _ end = _ => destruct c; try discriminate
    end; apply Ok_inj in EB; apply pair_equal_spec in EB as [<- _]; reflexivity.
Qed.

Lemma bformat_eqb_spec a b : bformat_eqb a b = true <-> a = b.
Proof. destruct a, b; cbn; split; congruence. Qed.

(** what rauc encrypt does *)
Lemma c78_output_ok : forall cr cf X files recipients copy app excl access fs inp out ok fs',
  (forall f, fs inp = Some f -> (N.of_nat (List.length f) < 2 ^ 64)%N) ->
  encrypt_start cr cf X files recipients copy app excl access fs inp out = (ok, fs') ->
  (forall q, q <> out -> fs' q = fs q) /\
  (ok = false -> fs' out = fs out) /\
  (ok = true -> fs out = None /\ exists names f b m cs e,
     recipients = Some names /\ fs inp = Some f /\
     check_bundle cr cf (mkBparams true false) false f excl access = Ok b /\ b_manifest b = Some m /\ mf_format m = F_CRYPT /\
     Forall (cert_file files) names /\
     (forall c, In c cs <-> exists n l, In n names /\ files n = Some l /\ In (PCert c) l) /\
     seal X cs (b_sig b) = Some e /\ e <> [] /\
     fs' out = Some (firstn (b_size b) f ++ e ++ be64 (N.of_nat (List.length e)))).
Proof.
  intros cr cf X files recipients copy app excl access fs inp out ok fs' HL H. unfold encrypt_start in H.
  assert (NOP : forall r g, (false, fs) = (r, g) -> (forall q, q <> out -> g q = fs q) /\ (r = false -> g out = fs out) /\ (r = true -> False)).
  { intros r g E. apply pair_equal_spec in E as [<- <-]. repeat split; discriminate. }
  destruct recipients as [names|]; [|destruct (NOP _ _ H) as (A & B & C); split; [exact A|split; [exact B|intros D; destruct (C D)]]].
  destruct (fs inp) as [f|] eqn:EI; [|destruct (NOP _ _ H) as (A & B & C); split; [exact A|split; [exact B|intros D; destruct (C D)]]].
  destruct (check_bundle cr cf (mkBparams true false) false f excl access) as [b| |] eqn:EC;
    [|destruct (NOP _ _ H) as (A & B & C); split; [exact A|split; [exact B|intros D; destruct (C D)]]..].
  unfold encrypt_bundle in H.
  destruct (b_manifest b) as [m|] eqn:EM; [|destruct (NOP _ _ H) as (A & B & C); split; [exact A|split; [exact B|intros D; destruct (C D)]]].
  destruct (bformat_eqb (mf_format m) F_CRYPT) eqn:EF; [|destruct (NOP _ _ H) as (A & B & C); split; [exact A|split; [exact B|intros D; destruct (C D)]]].
  apply bformat_eqb_spec in EF. destruct (check_size cr cf _ f excl access b (HL f eq_refl) EC) as (raw & _ & LS).
  destruct (derive_ok _ _ _ _ _ _ _ _ EI LS H) as [D1 D2]. destruct ok.
  - destruct (D2 eq_refl) as (O & Q & sig & Es & Eo). split; [exact Q|]. split; [discriminate|]. intros _. split; [exact O|].
    cbn [e_sig] in Es. unfold cms_encrypt in Es. destruct (load_recipients files names []) as [cs|] eqn:EL; [|discriminate].
    destruct (load_spec _ _ _ _ EL) as [L1 L2].
    destruct (seal X cs (b_sig b)) as [e|] eqn:ES; [|discriminate]. assert (EE : sig = e /\ e <> []) by (destruct e; split; congruence). destruct EE as [-> NE].
    exists names, f, b, m, cs, e. do 6 (split; [first [reflexivity|assumption]|]). split; [|split; [exact ES|split; [exact NE|exact Eo]]].
    intros c. rewrite L2. split; [intros [[]|Y]; exact Y|auto].
  - split; [intros q _; now apply D1|]. split; [intros _; now apply D1|discriminate].
Qed.

(** and it does succeed *)
Lemma c78_completes_ok : forall cr cf X files names fs inp out f b m excl access,
  (N.of_nat (List.length f) < 2 ^ 64)%N ->
  fs inp = Some f -> fs out = None -> check_bundle cr cf (mkBparams true false) false f excl access = Ok b ->
  b_manifest b = Some m -> mf_format m = F_CRYPT -> Forall (cert_file files) names ->
  (forall cs, exists e, seal X cs (b_sig b) = Some e /\ e <> []) ->
  exists fs', encrypt_start cr cf X files (Some names) Complete Complete excl access fs inp out = (true, fs').
Proof.
  intros cr cf X files names fs inp out f b m excl access HL EI EO EC EM EF FN SE. unfold encrypt_start. rewrite EI, EC. unfold encrypt_bundle. rewrite EM, EF. cbn [bformat_eqb].
  destruct (check_size cr cf _ f excl access b HL EC) as (raw & _ & LS).
  destruct (load_complete files names FN []) as (cs & EL). destruct (SE cs) as (e & ES & NE).
  apply (derive_completes_ok (mkRenv true Complete (fun _ => cms_encrypt X files names (b_sig b)) Complete) fs inp out (b_size b) f e EI LS EO eq_refl eq_refl eq_refl).
  cbn [e_sig]. unfold cms_encrypt. rewrite EL, ES. destruct e; [contradiction|reflexivity].
Qed.

(** the manifest is in the output only in its encrypted form *)
Lemma c78_depends_ok : forall cr cf X files recipients copy app excl access fs1 fs2 inp out fs1' fs2' f1 f2 b1 b2,
  (N.of_nat (List.length f1) < 2 ^ 64)%N -> (N.of_nat (List.length f2) < 2 ^ 64)%N ->
  fs1 inp = Some f1 -> fs2 inp = Some f2 ->
  check_bundle cr cf (mkBparams true false) false f1 excl access = Ok b1 ->
  check_bundle cr cf (mkBparams true false) false f2 excl access = Ok b2 ->
  firstn (b_size b1) f1 = firstn (b_size b2) f2 ->
  (forall cs, (forall c, In c cs -> exists names n l, recipients = Some names /\ In n names /\ files n = Some l /\ In (PCert c) l) ->
     seal X cs (b_sig b1) = seal X cs (b_sig b2)) ->
  encrypt_start cr cf X files recipients copy app excl access fs1 inp out = (true, fs1') ->
  encrypt_start cr cf X files recipients copy app excl access fs2 inp out = (true, fs2') ->
  fs1' out = fs2' out.
Proof.
  intros cr cf X files recipients copy app excl access fs1 fs2 inp out fs1' fs2' f1 f2 b1 b2 L1 L2 E1 E2 C1 C2 EP ES H1 H2.
  assert (P : forall fs fs' f b, (N.of_nat (List.length f) < 2 ^ 64)%N -> fs inp = Some f -> check_bundle cr cf (mkBparams true false) false f excl access = Ok b ->
     encrypt_start cr cf X files recipients copy app excl access fs inp out = (true, fs') ->
     exists names cs e, recipients = Some names /\ load_recipients files names [] = Some cs /\ seal X cs (b_sig b) = Some e /\
       fs' out = Some (firstn (b_size b) f ++ e ++ be64 (N.of_nat (List.length e)))).
  { intros fs fs' f b HL EI EC H. unfold encrypt_start in H. destruct recipients as [names|]; [|discriminate]. rewrite EI, EC in H.
    unfold encrypt_bundle in H. destruct (b_manifest b) as [m|]; [|discriminate]. destruct (bformat_eqb _ _); [|discriminate].
    destruct (check_size cr cf _ f excl access b HL EC) as (raw & _ & LS).
    destruct (derive_ok _ _ _ _ _ _ _ _ EI LS H) as [_ D2]. destruct (D2 eq_refl) as (_ & _ & sig & Es & Eo). cbn [e_sig] in Es. unfold cms_encrypt in Es.
    destruct (load_recipients files names []) as [cs|] eqn:EL; [|discriminate]. destruct (seal X cs (b_sig b)) as [e|] eqn:EE; [|discriminate].
    assert (sig = e) by (destruct e; congruence). subst sig. exists names, cs, e. auto. }
  destruct (P _ _ _ _ L1 E1 C1 H1) as (names & cs & e & R1 & A1 & B1 & D1). destruct (P _ _ _ _ L2 E2 C2 H2) as (names' & cs' & e' & R2 & A2 & B2 & D2).
  assert (names' = names) by congruence. subst names'. assert (cs' = cs) by congruence. subst cs'.
  assert (E : e = e').
  { apply Some_inj. rewrite <- B1, <- B2. apply ES. destruct (load_spec _ _ _ _ A1) as [_ Z]. intros c Hc. apply Z in Hc as [[]|(n & l & X1 & X2 & X3)]. exists names, n, l. auto. }
  rewrite D1, D2, EP, E. reflexivity.
Qed.

(** on the device of a recipient it is the bundle it was before, but known as encrypted; for
    others it is not *)
Lemma c78_recipient_ok : forall cr X fits cs cf pr remote excl access payload sig e c k cert,
  honest_box X cr fits -> seal X cs sig = Some e -> e <> [] -> sig <> [] ->
  cm_enveloped cr sig = false -> cm_detached cr sig = Some false ->
  (N.of_nat (List.length payload + List.length sig + 8) < 2 ^ 64)%N -> (N.of_nat (List.length payload + List.length e + 8) < 2 ^ 64)%N ->
  (N.of_nat (List.length sig) <= bc_maxsig cf)%N -> (N.of_nat (List.length e) <= bc_maxsig cf)%N ->
  In c cs -> fits c k -> cert = None \/ cert = Some (Some c) -> bc_key cf = true ->
  let dev := with_key cr X cert (Some k) in
  check_bundle dev cf pr remote (append_signature payload e) excl access =
  mark_encrypted (check_bundle dev cf pr remote (append_signature payload sig) excl access).
Proof.
  intros cr X fits cs cf pr remote excl access payload sig e c k cert HB ES NE NS EV ED L1 L2 M1 M2 HC HF HCERT HK dev.
  destruct (hb_enveloped _ _ _ HB _ _ _ ES) as [EE EDE]. destruct (hb_opens _ _ _ HB _ _ _ _ _ ES HC HF) as [U1 U2].
  destruct (c35_append_ok (bc_maxsig cf) payload sig L1 NS M1) as [O1 _]. destruct (c35_append_ok (bc_maxsig cf) payload e L2 NE M2) as [O2 _].
  assert (DC : cms_decrypt X (cm_enveloped cr) cert (Some k) e = Some sig).
  { unfold cms_decrypt. rewrite EE. cbn [negb]. destruct HCERT as [-> | ->]; [rewrite U1|rewrite U2]; destruct sig; [contradiction|reflexivity|contradiction|reflexivity]. }
  unfold check_bundle. destruct (bp_verify pr && negb (bc_keyring cf)); [reflexivity|].
  assert (OP : forall s, open_local (bc_maxsig cf) (append_signature payload s) = Ok (List.length payload, s) ->
     (if remote then open_remote (bc_maxsig cf) (append_signature payload s) else open_local (bc_maxsig cf) (append_signature payload s)) =
     (if remote && negb (Nat.eqb (List.length payload mod 4096) 0) then Err else Ok (List.length payload, s))).
  { intros s O. destruct remote; [|exact O]. cbn [andb]. unfold open_local in O. unfold open_remote.
    destruct (Nat.ltb _ 8); [discriminate|]. cbv zeta in *. destruct (N.eqb _ 0); [discriminate|]. destruct (N.ltb _ _); [discriminate|]. destruct (N.ltb _ _); [discriminate|].
    apply Ok_inj in O. apply pair_equal_spec in O as [O1' O2']. rewrite O1'. rewrite O1' in O2'. rewrite O2'. reflexivity. }
  rewrite (OP e O2), (OP sig O1). destruct (remote && negb (Nat.eqb (List.length payload mod 4096) 0)); [reflexivity|]. cbn [bind].
  subst dev. cbn [cm_detached cm_enveloped cm_decrypt cm_verify cm_verify_fd cm_unverified cm_load with_key]. rewrite EDE, ED. cbn [of_option bind andb].
  rewrite EE, EV, HK, DC. cbn [bind]. destruct (bp_verify pr).
  - destruct (cm_verify cr sig) as [mb|]; [|reflexivity]. cbn [bind]. destruct (cm_load cr mb) as [m| |]; cbn [bind]; [|reflexivity..].
    destruct (bformat_eqb (mf_format m) F_PLAIN); [reflexivity|]. cbn [bind]. destruct (negb _); reflexivity.
  - destruct (cm_unverified cr sig) as [mb|]; [|reflexivity]. cbn [bind]. destruct (cm_load cr mb) as [m| |]; cbn [bind]; [|reflexivity..].
    destruct (bformat_eqb (mf_format m) F_PLAIN); [reflexivity|]. cbn [bind]. destruct (negb _); reflexivity.
Qed.

Lemma check_sig cr cf pr (remote : bool) f excl access b size raw :
  (if remote then open_remote (bc_maxsig cf) f else open_local (bc_maxsig cf) f) = Ok (size, raw) ->
  check_bundle cr cf pr remote f excl access = Ok b ->
  if cm_enveloped cr raw then bc_key cf = true /\ cm_decrypt cr raw = Some (b_sig b) /\ b_was_encrypted b = true else b_sig b = raw /\ b_was_encrypted b = false.
Proof.
  intros O H. unfold check_bundle in H. destruct (bp_verify pr && negb (bc_keyring cf)); [discriminate|]. rewrite O in H. cbn [bind] in H.
  destruct (cm_detached cr raw) as [det|]; cbn [of_option bind] in H; [|discriminate]. destruct (det && remote); [discriminate|].
  destruct (if cm_enveloped cr raw then _ else _) as [[enc sig]| |] eqn:EE; cbn [bind] in H; try discriminate.
  destruct (if bp_verify pr then _ else _) as [[b1 mb]| |] eqn:EB; cbn [bind] in H; try discriminate.
  destruct (match mb with None => _ | Some _ => _ end) as [m| |]; cbn [bind] in H; try discriminate.
  destruct (negb (format_allowed cf m)); [discriminate|]. apply Ok_inj in H. subst b. cbn [b_sig b_was_encrypted].
  assert (X : b_sig b1 = sig /\ b_was_encrypted b1 = enc).
  { destruct (bp_verify pr), det; cbn in EB;
    repeat match type of EB with
    | (if ?c then _ else _) = _ => destruct c; try discriminate
    | match ?c with Some _ => _ | None => _ end = _ => destruct c; try discriminate
    end; apply Ok_inj in EB; apply pair_equal_spec in EB as [<- _]; split; reflexivity. }
  destruct X as [-> ->]. destruct (cm_enveloped cr raw).
  - destruct (bc_key cf); [|discriminate]. destruct (cm_decrypt cr raw) as [s|]; [|discriminate]. apply Ok_inj in EE. apply pair_equal_spec in EE as [<- <-]. auto.
  - apply Ok_inj in EE. apply pair_equal_spec in EE as [<- <-]. auto.
Qed.
Lemma open_either (cf : bconf) (remote : bool) f size raw : (if remote then open_remote (bc_maxsig cf) f else open_local (bc_maxsig cf) f) = Ok (size, raw) ->
  open_local (bc_maxsig cf) f = Ok (size, raw).
Proof.
  destruct remote; [|auto]. unfold open_remote, open_local. destruct (Nat.ltb _ 8); [discriminate|]. cbv zeta. destruct (N.eqb _ 0); [discriminate|].
  destruct (N.ltb _ _); [discriminate|]. destruct (N.ltb _ _); [discriminate|]. destruct (negb _); [discriminate|auto].
Qed.

Lemma c78_others_ok : forall cr X fits cs cf pr remote excl access payload sig e cert k b,
  honest_box X cr fits -> seal X cs sig = Some e -> e <> [] ->
  (N.of_nat (List.length payload + List.length e + 8) < 2 ^ 64)%N -> (N.of_nat (List.length e) <= bc_maxsig cf)%N ->
  (forall c x, In c cs -> k = Some x -> ~ fits c x) ->
  check_bundle (with_key cr X cert k) cf pr remote (append_signature payload e) excl access = Ok b -> b_sig b <> sig.
Proof.
  intros cr X fits cs cf pr remote excl access payload sig e cert k b HB ES NE L M NF H E.
  destruct (hb_enveloped _ _ _ HB _ _ _ ES) as [EE EDE]. destruct (c35_append_ok (bc_maxsig cf) payload e L NE M) as [O _].
  assert (O' : exists size raw, (if remote then open_remote (bc_maxsig cf) (append_signature payload e) else open_local (bc_maxsig cf) (append_signature payload e)) = Ok (size, raw)).
  { unfold check_bundle in H. destruct (bp_verify pr && _); [discriminate|]. destruct (if remote then _ else _) as [[size raw]| |]; try discriminate. eauto. }
  destruct O' as (size & raw & O'). pose proof (open_either _ _ _ _ _ O') as O2. rewrite O in O2. apply Ok_inj in O2. apply pair_equal_spec in O2 as [<- <-].
  pose proof (check_sig _ _ _ _ _ _ _ _ _ _ O' H) as Z. cbn [cm_enveloped with_key] in Z. rewrite EE in Z. destruct Z as (_ & Z & _). cbn [cm_decrypt with_key] in Z.
  unfold cms_decrypt in Z. destruct cert as [[c|]|]; try discriminate; (destruct k as [x|]; [|discriminate]); rewrite EE in Z; cbn [negb] in Z.
  - destruct (unseal X x (Some c) e) as [s|] eqn:U; [|discriminate]. apply (hb_secret _ _ _ HB cs sig e x (Some c) ES).
    + intros y Hy. now apply (NF y x).
    + rewrite U. rewrite <- E. destruct s; [discriminate|exact Z].
  - destruct (unseal X x None e) as [s|] eqn:U; [|discriminate]. apply (hb_secret _ _ _ HB cs sig e x None ES).
    + intros y Hy. now apply (NF y x).
    + rewrite U. rewrite <- E. destruct s; [discriminate|exact Z].
Qed.

(** only encrypted crypt bundles are installed *)
Lemma c78_install_ok : forall B cr sha (bk : InstallRun.backend B) cf a go remote f f_mount excl access inp w r es b m size raw,
  do_install cr sha bk cf a go remote f f_mount excl access inp w = (r, es) ->
  (if remote then open_remote (bc_maxsig (gc_bundle cf)) f else open_local (bc_maxsig (gc_bundle cf)) f) = Ok (size, raw) ->
  check_bundle cr (gc_bundle cf) (mkBparams true false) remote f excl access = Ok b ->
  b_manifest b = Some m -> mf_format m = F_CRYPT -> r = Ok tt \/ es <> [] -> cm_enveloped cr raw = true.
Proof.
  intros B cr sha bk cf a go remote f f_mount excl access inp w r es b m size raw H O C EM EF G. unfold do_install in H.
  destruct (negb (go_mounts go)). { apply pair_equal_spec in H as [<- <-]. destruct G; [discriminate|contradiction]. }
  rewrite C in H. destruct (negb (hash_gate cr sha a b)). { apply pair_equal_spec in H as [<- <-]. destruct G; [discriminate|contradiction]. }
  destruct (crypt_gate b) eqn:CG; cbn [negb] in H. 2:{ apply pair_equal_spec in H as [<- <-]. destruct G; [discriminate|contradiction]. }
  unfold crypt_gate in CG. rewrite EM, EF in CG. cbn [bformat_eqb andb] in CG. pose proof (check_sig _ _ _ _ _ _ _ _ _ _ O C) as Z.
  destruct (cm_enveloped cr raw); [reflexivity|]. destruct Z as [_ Z]. rewrite Z in CG. discriminate.
Qed.

(** ** a concrete world: sealed data is 'E', the recipient's number, the content *)
Definition toy_seal (cs : list cert) (m : bytes) : option bytes :=
  match cs with
  | [c] => if (ct_id c <? 256)%N then Some ("E"%char :: ascii_of_N (ct_id c) :: m) else None
  | _ => None
  end.
Definition toy_unseal (k : key) (c : option cert) (e : bytes) : option bytes :=
  match e with
  | _ :: i :: m => if N.eqb (N_of_ascii i) k && (match c with None => true | Some x => N.eqb (ct_id x) k end) then Some m else None
  | _ => None
  end.
Definition toy_box : cms_box := mkBox toy_seal toy_unseal.
Definition toy_crypto : crypto :=
  mkCrypto (fun _ => Some false) (fun s => match s with c :: _ => Ascii.eqb c "E" | [] => false end) (fun _ => None)
    (fun s => Some s) (fun _ _ => false) (fun s => Some s) (fun _ => Ok (BundleProofs.ex_manifest F_CRYPT 4096)) (fun _ => Err) (fun _ _ _ _ => true).
Definition toy_fits (c : cert) (k : key) : Prop := ct_id c = k.
Lemma toy_honest : honest_box toy_box toy_crypto toy_fits.
Proof.
  split.
  - intros cs m e H. cbn in H. unfold toy_seal in H. destruct cs as [|c [|? ?]]; try discriminate. destruct (ct_id c <? 256)%N; [|discriminate]. apply Some_inj in H. subst e. auto.
  - intros cs m e c k H HC HF. cbn in H. unfold toy_seal in H. destruct cs as [|x [|? ?]]; try discriminate. destruct (N.ltb_spec (ct_id x) 256); [|discriminate]. apply Some_inj in H. subst e.
    destruct HC as [->|[]]. unfold toy_fits in HF. cbn. rewrite N_ascii_embedding by assumption. rewrite HF, N.eqb_refl. auto.
  - intros cs m e k c H HF E. cbn in H. unfold toy_seal in H. destruct cs as [|x [|? ?]]; try discriminate. destruct (N.ltb_spec (ct_id x) 256); [|discriminate]. apply Some_inj in H. subst e.
    cbn in E. rewrite N_ascii_embedding in E by assumption. destruct (N.eqb_spec (ct_id x) k) as [Z|Z]; [|discriminate]. apply (HF x (or_introl eq_refl)). exact Z.
Qed.
Definition toy_cert : cert := mkCert 7 None None None 1.
Definition toy_conf : bconf := mkBconf true true (fun _ => true) 65536 "1.0".

(** resigning an encrypted bundle gives one everybody can read *)
Lemma c78_resign_refuted : exists X cr fits cs e sig sig' fs fs' payload k b b',
  honest_box X cr fits /\ seal X cs sig = Some e /\ fs "in" = Some (append_signature payload e) /\
  check_bundle (with_key cr X None (Some k)) toy_conf (mkBparams true false) false (append_signature payload e) true true = Ok b /\
  b_was_encrypted b = true /\
  derive (mkRenv true Complete (fun _ => Some sig') Complete) fs "in" "out" (b_size b) = (true, fs') /\
  fs' "out" = Some (append_signature payload sig') /\
  check_bundle (with_key cr X None None) toy_conf (mkBparams true false) false (append_signature payload sig') true true = Ok b' /\
  b_manifest b' = b_manifest b /\ exists m, b_manifest b' = Some m /\ mf_crypt_key m <> None.
Proof.
  exists toy_box, toy_crypto, toy_fits, [toy_cert], ["E"; ascii_of_N 7; "S"]%char, ["S"]%char, ["T"]%char.
  set (payload := repeat "P"%char 10).
  exists (fset (fun _ => None) "in" (Some (append_signature payload ["E"; ascii_of_N 7; "S"]%char))).
  eexists. exists payload, 7%N. eexists. eexists. split; [exact toy_honest|]. split; [reflexivity|]. split; [reflexivity|].
  split; [vm_compute; reflexivity|]. split; [reflexivity|]. split; [cbn; reflexivity|]. split; [vm_compute; reflexivity|].
  split; [vm_compute; reflexivity|]. split; [reflexivity|]. eexists. split; [reflexivity|]. discriminate.
Qed.
