(** Property theorems for signature verification (C56) and derived bundles (C57).
    Vocabulary: SignatureSpec.v. *)
From Verif Require Import Base BaseLemmas Image KeyFile Hex Semver Manifest Bundle BundleSpec Signature SignatureSpec SignatureProofs
  SignatureExamples SignatureMore Resign ResignProofs ResignTop.

(** C56: what an accepted bundle was signed by *)
Theorem C56_signed : forall L P K load inner verity cf pr (remote : bool) f excl access b,
  honest L P ->
  check L K load inner verity cf pr remote f excl access = Ok b -> bp_verify pr = true ->
  exists size raw sig c x,
    (if remote then open_remote (bc_maxsig cf) f else open_local (bc_maxsig cf) f) = Ok (size, raw) /\
    (if is_enveloped L raw then decrypt L raw = Some sig else sig = raw) /\
    ssl_parse L sig = Some c /\
    ((remote = false /\ cs_content c = None /\ signed_by L P K c x (firstn size f)) \/
     (exists m mf, cs_content c = Some m /\ signed_by L P K c x m /\ load m = Ok mf /\ b_manifest b = Some mf)).
Proof. exact check_signed_ok. Qed.
Print Assumptions C56_signed.
(** C56: and a bundle signed like that is accepted *)
Theorem C56_accepts : forall L P K load inner verity cf pr (remote : bool) f excl access size raw c s x rest m mf,
  complete L P -> store_ready L K -> bp_verify pr = true -> bc_keyring cf = true ->
  (if remote then open_remote (bc_maxsig cf) f else open_local (bc_maxsig cf) f) = Ok (size, raw) ->
  ssl_parse L raw = Some c -> cs_type c = TSigned -> cs_content c = Some m -> cs_signers c = [s] -> si_cert s = Some x ->
  ssl_sig L s m = true -> cn_allowed K x -> trusted_by P K (signing_time s) x rest ->
  (forall y, In y rest -> In y (cs_certs c) \/ p_keyring P (k_path K) (k_dir K) y = true) ->
  load m = Ok mf -> mf_format mf <> F_PLAIN -> bc_allowed cf (mf_format mf) = true ->
  exists b, check L K load inner verity cf pr remote f excl access = Ok b /\ b_manifest b = Some mf /\ b_sig_verified b = true.
Proof. exact check_complete_ok. Qed.
Print Assumptions C56_accepts.
Theorem C56_accepts_plain : forall L P K sig c s x rest payload,
  complete L P -> store_ready L K ->
  ssl_parse L sig = Some c -> cs_type c = TSigned -> cs_content c = None -> cs_signers c = [s] -> si_cert s = Some x ->
  ssl_sig L s payload = true -> cn_allowed K x -> trusted_by P K (signing_time s) x rest ->
  (forall y, In y rest -> In y (cs_certs c) \/ p_keyring P (k_path K) (k_dir K) y = true) ->
  payload <> [] -> (N.of_nat (List.length payload) <= 2147483647)%N ->
  verify_fd L K payload sig = true.
Proof. exact verify_detached_complete_ok. Qed.
Print Assumptions C56_accepts_plain.
(** C56: without a readable keyring, or with an unknown purpose, nothing is *)
Theorem C56_no_keyring : forall L K load inner verity cf pr (remote : bool) f excl access b,
  ~ store_ready L K -> bp_verify pr = true -> check L K load inner verity cf pr remote f excl access <> Ok b.
Proof. exact not_ready_ok. Qed.
Print Assumptions C56_no_keyring.
(** C56: signing with a keyring returns only signatures which this keyring accepts *)
Theorem C56_sign : forall L P K signing detached content sig out,
  honest L P -> sign_check L K signing detached content sig = Some out ->
  (forall p, signing = Some p -> p <> "") -> (signing = None -> k_path K <> Some "" /\ k_dir K <> Some "") ->
  (k_path K <> None \/ k_dir K <> None \/ signing <> None) ->
  out = sig /\ exists c x, ssl_parse L sig = Some c /\
    (if detached then cs_content c = None /\ signed_by L P (sign_conf K signing) c x content
     else exists m, cs_content c = Some m /\ signed_by L P (sign_conf K signing) c x m).
Proof. exact sign_check_ok. Qed.
Print Assumptions C56_sign.
(** C56: a second signature ('rauc resign --append') makes an accepted bundle unusable everywhere *)
Theorem C56_append_refuted : forall L K K' raw raw' c inter y s,
  ssl_parse L raw = Some c -> ssl_parse L raw' = Some (append_signer c inter y s) ->
  (exists m, verify_sig L K raw = Some m) \/ (exists p, verify_fd L K p raw = true) ->
  verify_sig L K' raw' = None /\ forall p, verify_fd L K' p raw' = false.
Proof. exact append_refuted. Qed.
Print Assumptions C56_append_refuted.

(** C56: cms_verify_bytes, which allows several signers: all of them are trusted and signed the same data,
    and one of them has an allowed name *)
Theorem C56_verify_bytes : forall L P K st content want sig c st' out,
  honest L P -> verify_bytes L K st content want sig = Some (c, st', out) ->
  ssl_parse L sig = Some c /\ cs_type c = TSigned /\
  (exists data, checked_data content c data out /\ all_trusted L P st' c data) /\
  (want = true <-> out <> None) /\
  (k_signing_time K = false -> st' = st) /\
  (k_signing_time K = true -> exists s t, cs_signers c = [s] /\ signing_time s = Some t /\ (0 <= t)%Z /\ st' = with_time st t) /\
  (forall l, k_cns K = Some l -> exists s x, In s (cs_signers c) /\ si_cert s = Some x /\ cn_allowed K x).
Proof. exact verify_bytes_ok. Qed.
Print Assumptions C56_verify_bytes.
Theorem C56_verify_bytes_accepts : forall L P K st (content : option bytes) sig c data out,
  complete L P -> k_signing_time K = false ->
  ssl_parse L sig = Some c -> cs_type c = TSigned -> checked_data content c data out ->
  cs_signers c <> [] ->
  (forall s, In s (cs_signers c) -> exists x rest, si_cert s = Some x /\ ssl_sig L s data = true /\ chain_ok P (cms_store st) x rest /\
     (forall y, In y rest -> In y (cs_certs c) \/ p_keyring P (st_path st) (st_dir st) y = true) /\
     (forall cn, ct_cn x = Some cn -> has_nul cn = false)) ->
  (exists s x, In s (cs_signers c) /\ si_cert s = Some x /\ cn_allowed K x) ->
  verify_bytes L K st content (match content with None => true | Some _ => false end) sig = Some (c, st, out).
Proof. exact verify_bytes_complete_ok. Qed.
Print Assumptions C56_verify_bytes_accepts.
Theorem C56_append_keeps : forall L P K st sig sig' c m s x rest inter,
  complete L P -> honest L P -> k_signing_time K = false ->
  (exists out, verify_bytes L K st None true sig = Some (c, st, out)) -> cs_content c = Some m ->
  (forall y cn, In y (signer_certs c) \/ y = x -> ct_cn y = Some cn -> has_nul cn = false) ->
  (forall y z zs, In z (signer_certs c) -> chain_ok P (cms_store st) z zs -> In y zs -> In y (cs_certs c) \/ p_keyring P (st_path st) (st_dir st) y = true) ->
  ssl_parse L sig' = Some (append_signer c inter x s) ->
  ssl_sig L (mkSigner (si_id s) (Some x) (si_time s)) m = true -> chain_ok P (cms_store st) x rest ->
  (forall y, In y rest -> In y inter \/ p_keyring P (st_path st) (st_dir st) y = true) ->
  verify_bytes L K st None true sig' = Some (append_signer c inter x s, st, Some m).
Proof. exact append_keeps_ok. Qed.
Print Assumptions C56_append_keeps.
Theorem C56_append_certs : forall c inter x s y, In y (cs_certs (append_signer c inter x s)) <-> In y (cs_certs c) \/ In y inter \/ y = x.
Proof. exact append_certs_ok. Qed.
Print Assumptions C56_append_certs.
(** C56: check-purpose *)
Theorem C56_codesign : forall L P K load inner verity cf pr (remote : bool) f excl access b,
  honest L P -> k_purpose K = config_purpose (Some "codesign") ->
  check L K load inner verity cf pr remote f excl access = Ok b -> bp_verify pr = true ->
  exists x rest, code_signer x /\ Forall code_ca rest /\ linked P (x :: rest) /\ p_keyring P (k_path K) (k_dir K) (last (x :: rest) x) = true /\
    exists size raw sig c data,
      (if remote then open_remote (bc_maxsig cf) f else open_local (bc_maxsig cf) f) = Ok (size, raw) /\
      (if is_enveloped L raw then decrypt L raw = Some sig else sig = raw) /\
      ssl_parse L sig = Some c /\ signed_by L P K c x data.
Proof. exact codesign_ok. Qed.
Print Assumptions C56_codesign.
Theorem C56_purpose : forall s, s <> "codesign" -> config_purpose (Some s) = Some s.
Proof. exact other_purpose_ok. Qed.
Print Assumptions C56_purpose.

(** a bundle signed by the release key is accepted with all checks enabled; the one signed by the
    server key is not *)
Definition ex_mf : manifest :=
  mkManifest (Some "Example") None None None None F_VERITY true None None 0 None None None None false [] [].
Definition ex_load (b : bytes) : res manifest := match b with ["M"%char] => Ok ex_mf | _ => Err end.
Definition ex_file (sig : ascii) : bytes := append_signature (repeat "P"%char 10) [sig].
Definition ex_bconf : bconf := mkBconf true true (fun _ => true) 65536 "1.15".
Definition ex_K := ex_keyconf (Some ["Other Key"; "Example Release Key"]) (Some "codesign").
Definition ex_check (K : keyconf) (sig : ascii) : res bundle :=
  check ex_ssl K ex_load (fun _ => Err) (fun _ _ _ _ => true) ex_bconf (mkBparams true false) false (ex_file sig) true true.

Example ex_signed : exists b, ex_check ex_K "I" = Ok b /\ b_manifest b = Some ex_mf /\ b_sig_verified b = true.
Proof. vm_compute. eexists. split; [reflexivity|]. split; reflexivity. Qed.
(** encrypted: decrypted first *)
Example ex_signed_encrypted : exists b, ex_check ex_K "E" = Ok b /\ b_manifest b = Some ex_mf /\ b_was_encrypted b = true.
Proof. vm_compute. eexists. split; [reflexivity|]. split; reflexivity. Qed.
Example ex_signed_plain : exists b, ex_check ex_K "D" = Ok b /\ b_payload_verified b = true.
Proof. vm_compute. eexists. split; reflexivity. Qed.
Example ex_other_signer : ex_check (ex_keyconf None (Some "codesign")) "S" = Err /\
  exists b, ex_check (ex_keyconf None None) "S" = Ok b.
Proof. split; [vm_compute; reflexivity|]. vm_compute. eexists. reflexivity. Qed.
Example ex_other_cn : ex_check (ex_keyconf (Some ["Other Key"]) None) "I" = Err /\ ex_check (ex_keyconf (Some []) None) "I" = Err.
Proof. split; vm_compute; reflexivity. Qed.
Example ex_unknown_purpose : ex_check (ex_keyconf None (Some "typo")) "I" = Err.
Proof. vm_compute; reflexivity. Qed.
Example ex_appended : ex_check (ex_keyconf None None) "A" = Err.
Proof. vm_compute; reflexivity. Qed.
(** two signers: fine for cms_verify_bytes, not for check_bundle *)
Definition ex_K2 : keyconf := mkKeyconf (Some "/etc/rauc/ca.pem") None true false None (Some ["Example Release Key"]) false false.
Example ex_two_signers : exists st, setup_store ex_ssl ex_K2 None None = Some st /\
  verify_bytes ex_ssl ex_K2 st None true ["A"%char] = Some (append_signer ex_cms [] ex_dev ex_other, st, Some ex_manifest) /\
  ex_check ex_K2 "A" = Err /\ exists b, ex_check ex_K2 "I" = Ok b.
Proof. eexists. split; [reflexivity|]. split; [vm_compute; reflexivity|]. split; [vm_compute; reflexivity|]. vm_compute. eexists. reflexivity. Qed.
Example ex_world : honest ex_ssl ex_pki /\ complete ex_ssl ex_pki /\ store_ready ex_ssl ex_K /\
  trusted_by ex_pki ex_K (signing_time ex_signer) ex_leaf [ex_inter; ex_root] /\ cn_allowed ex_K ex_leaf.
Proof.
  split; [exact ex_honest|]. split; [exact ex_complete|]. split.
  { split; [reflexivity|]. intros p Hp. injection Hp as <-. left. reflexivity. }
  split.
  { unfold trusted_by. split; [split; [reflexivity|split; [reflexivity|exact I]]|]. split; [reflexivity|]. split; [reflexivity|].
    split; [intros _; exists 120%Z; split; [reflexivity|]; split; [lia|]; repeat constructor|].
    split; [discriminate|]. split; [intros _; repeat constructor|].
    split; [intros _; split; [split; [reflexivity|discriminate]|]; repeat constructor; discriminate|].
    intros p -> Hp. exfalso. apply Hp. reflexivity. }
  exists "Example Release Key". split; [reflexivity|]. split; [right; left; reflexivity|reflexivity].
Qed.

(** C57: resign and encrypt: on failure nothing has changed, on success the output is the payload with
    the new signature, and nothing else has changed *)
Theorem C57_derive : forall e fs inp out size f ok fs',
  fs inp = Some f -> size <= List.length f -> derive e fs inp out size = (ok, fs') ->
  (ok = false -> forall p, fs' p = fs p) /\
  (ok = true -> fs out = None /\ (forall p, p <> out -> fs' p = fs p) /\
     exists sig, e_sig e (firstn size f) = Some sig /\
       fs' out = Some (firstn size f ++ sig ++ be64 (N.of_nat (List.length sig)))).
Proof. exact derive_ok. Qed.
Print Assumptions C57_derive.
Theorem C57_completes : forall e fs inp out size f sig,
  fs inp = Some f -> size <= List.length f -> fs out = None ->
  e_prepare e = true -> e_copy e = Complete -> e_append e = Complete -> e_sig e (firstn size f) = Some sig ->
  exists fs', derive e fs inp out size = (true, fs').
Proof. exact derive_completes_ok. Qed.
Print Assumptions C57_completes.
(** C57: a plain bundle resigned with a keyring is signed by someone this keyring trusts *)
Theorem C57_resign : forall L P K signing (mk : bytes -> bytes) prep copy app fs inp out f size old fs' maxsig,
  honest L P -> (forall p, signing = Some p -> p <> "") -> (signing = None -> k_path K <> Some "" /\ k_dir K <> Some "") ->
  (k_path K <> None \/ k_dir K <> None \/ signing <> None) ->
  fs inp = Some f -> open_local maxsig f = Ok (size, old) ->
  derive (mkRenv prep copy (fun p => sign_check L K signing true p (mk p)) app) fs inp out size = (true, fs') ->
  let sig := mk (firstn size f) in
  sig <> [] -> (N.of_nat (List.length sig) <= maxsig)%N -> (N.of_nat (List.length f + List.length sig) < 2 ^ 64)%N ->
  exists g c x, fs' out = Some g /\ open_local maxsig g = Ok (size, sig) /\ firstn size g = firstn size f /\
    ssl_parse L sig = Some c /\ signed_by L P (sign_conf K signing) c x (firstn size g).
Proof. exact resign_plain_ok. Qed.
Print Assumptions C57_resign.
(** C57: replace-signature: likewise, and the new bundle passed the check with the keyring that counts *)
Theorem C57_replace : forall e chk fs inp out size f k ok fs' k',
  fs inp = Some f -> size <= List.length f -> replace_signature e chk fs inp out size k = (ok, fs', k') ->
  (ok = false -> forall p, fs' p = fs p) /\
  (ok = true -> fs out = None /\ (forall p, p <> out -> fs' p = fs p) /\
     exists sig g, e_sig e [] = Some sig /\ g = firstn size f ++ sig ++ be64 (N.of_nat (List.length sig)) /\ fs' out = Some g /\
       chk (fst (deciding k)) (snd (deciding k)) (match deciding k with (None, None) => false | _ => true end) g = true).
Proof. exact replace_ok. Qed.
Print Assumptions C57_replace.
Theorem C57_replace_checked : forall (e : renv) (conf : option string -> option string -> keyconf) L P load inner verity cf trust excl access
    fs inp out f size k fs' k',
  (forall p d, k_path (conf p d) = p /\ k_dir (conf p d) = d) -> honest L P ->
  fs inp = Some f -> size <= List.length f ->
  replace_signature e (fun p d v g => match check L (conf p d) load inner verity cf (mkBparams v trust) false g excl access with Ok _ => true | _ => false end)
    fs inp out size k = (true, fs', k') ->
  deciding k <> (None, None) ->
  exists g sz raw sig c x, fs' out = Some g /\ firstn size g = firstn size f /\ open_local (bc_maxsig cf) g = Ok (sz, raw) /\
    (if is_enveloped L raw then decrypt L raw = Some sig else sig = raw) /\
    ssl_parse L sig = Some c /\
    (signed_by L P (conf (fst (deciding k)) (snd (deciding k))) c x (firstn sz g) \/
     exists m, cs_content c = Some m /\ signed_by L P (conf (fst (deciding k)) (snd (deciding k))) c x m).
Proof. exact replace_checked_ok. Qed.
Print Assumptions C57_replace_checked.
Theorem C57_settings : forall e chk fs inp out size k ok fs' k',
  replace_signature e chk fs inp out size k = (ok, fs', k') ->
  ks_path k <> None \/ ks_dir k <> None \/ ks_signing k = None -> k' = k.
Proof. exact settings_ok. Qed.
Print Assumptions C57_settings.
Theorem C57_double_free_refuted : exists e chk fs k ok fs' k',
  replace_signature e chk fs "in.raucb" "out.raucb" 1 k = (ok, fs', k') /\ ok = true /\
  ks_path k = None /\ ks_dir k = None /\ NoDup (frees k) /\ ~ NoDup (frees k').
Proof. exact double_free_refuted. Qed.
Print Assumptions C57_double_free_refuted.
Theorem C57_extract : forall fs out sig o ok fs', extract_signature fs out sig o = (ok, fs') ->
  (forall p, p <> out -> fs' p = fs p) /\ (fs out <> None -> ok = false /\ fs' = fs) /\ (ok = true -> fs' out = Some sig).
Proof. exact extract_ok. Qed.
Print Assumptions C57_extract.
Theorem C57_extract_partial_refuted : exists fs sig o fs',
  extract_signature fs "bundle.sig" sig o = (false, fs') /\ fs "bundle.sig" = None /\ fs' "bundle.sig" = Some ["a"%char].
Proof. exact extract_partial_refuted. Qed.
Print Assumptions C57_extract_partial_refuted.

(** C57: if another program creates the output in between: never overwritten, but removed *)
Theorem C57_shared : forall e between fs inp out size ok fs', derive_shared e between fs inp out size = (ok, fs') ->
  (forall p, p <> out -> fs' p = fs p \/ fs' p = between fs p) /\
  (between fs out <> None -> ok = false) /\
  (ok = true -> exists f sig, between fs inp = Some f /\ between fs out = None /\
     e_sig e (firstn size f ++ repeat "000"%char (size - List.length f)) = Some sig /\
     fs' out = Some ((firstn size f ++ repeat "000"%char (size - List.length f)) ++ sig ++ be64 (N.of_nat (List.length sig)))).
Proof. exact shared_ok. Qed.
Print Assumptions C57_shared.
Theorem C57_shared_removed_refuted : forall e between fs inp out size g,
  fs out = None -> between fs out = Some g ->
  fst (derive_shared e between fs inp out size) = false /\ snd (derive_shared e between fs inp out size) out = None.
Proof. exact shared_removed_refuted. Qed.
Print Assumptions C57_shared_removed_refuted.

Definition ex_fs : rfs := fun p => if String.eqb p "in.raucb" then Some (ex_file "I") else if String.eqb p "old.raucb" then Some [] else None.
Definition ex_env : renv := mkRenv true Complete (fun p => sign_check ex_ssl (ex_keyconf None None) None true p ["D"%char]) Complete.
Example ex_resign : exists fs', derive ex_env ex_fs "in.raucb" "out.raucb" 10 = (true, fs') /\
  fs' "out.raucb" = Some (ex_file "D") /\ open_local 65536 (ex_file "I") = Ok (10, ["I"%char]).
Proof. eexists. split; [reflexivity|]. split; vm_compute; reflexivity. Qed.
Example ex_resign_exists : fst (derive ex_env ex_fs "in.raucb" "old.raucb" 10) = false.
Proof. reflexivity. Qed.
Example ex_replace : exists fs' k', replace_signature (mkRenv true Complete (fun _ => Some ["D"%char]) Complete)
    (fun p d v g => match check ex_ssl (mkKeyconf p d false false None None false false) ex_load (fun _ => Err) (fun _ _ _ _ => true)
                            ex_bconf (mkBparams v true) false g true true with Ok _ => true | _ => false end)
    ex_fs "in.raucb" "out.raucb" 10 (mkKsettings (Some (1%N, "/old.pem")) None (Some (2%N, "/etc/rauc/ca.pem"))) = (true, fs', k') /\
  fs' "out.raucb" = Some (ex_file "D") /\ k' = mkKsettings (Some (1%N, "/old.pem")) None (Some (2%N, "/etc/rauc/ca.pem")).
Proof. eexists _, _. split; [vm_compute; reflexivity|]. split; vm_compute; reflexivity. Qed.
Example ex_shared : exists fs', derive_shared ex_env (fun g => fset g "out.raucb" (Some ["x"%char])) ex_fs "in.raucb" "out.raucb" 10 = (false, fs') /\
  fs' "out.raucb" = None /\ exists fs2, derive_shared ex_env (fun g => g) ex_fs "in.raucb" "out.raucb" 10 = (true, fs2).
Proof. eexists. split; [reflexivity|]. split; [reflexivity|]. eexists. reflexivity. Qed.
