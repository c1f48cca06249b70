(** C57: derived bundles can be opened, and are accepted by the keyring that decided about them. *)
From Verif Require Import Base BaseLemmas Image KeyFile Hex Semver Manifest Bundle BundleSpec BundleProofs Signature SignatureSpec
  SignatureProofs Resign ResignProofs.

(** resigning with a keyring: the new signature is by someone this keyring trusts (plain
    format; [mk]: what OpenSSL makes of the payload) *)
Lemma resign_plain_ok : forall L P K signing (mk : bytes -> bytes) prep copy app fs inp out f size old fs' maxsig,
  honest L P -> (forall p, signing = Some p -> p <> "") -> (signing = None -> k_path K <> Some "" /\ k_dir K <> Some "") ->
  (k_path K <> None \/ k_dir K <> None \/ signing <> None) ->
  fs inp = Some f -> open_local maxsig f = Ok (size, old) ->
  derive (mkRenv prep copy (fun p => sign_check L K signing true p (mk p)) app) fs inp out size = (true, fs') ->
  let sig := mk (firstn size f) in
  sig <> [] -> (N.of_nat (List.length sig) <= maxsig)%N -> (N.of_nat (List.length f + List.length sig) < 2 ^ 64)%N ->
  exists g c x, fs' out = Some g /\ open_local maxsig g = Ok (size, sig) /\ firstn size g = firstn size f /\
    ssl_parse L sig = Some c /\ signed_by L P (sign_conf K signing) c x (firstn size g).
Proof.
  intros L P K signing mk prep copy app fs inp out f size old fs' maxsig Hh Hs1 Hs2 Hk Hf Ho H sig Hne Hmax Hlen.
  assert (Hsz : size <= List.length f).
  { unfold open_local in Ho. destruct (List.length f <? 8)%nat eqn:E; [discriminate|]. apply Nat.ltb_ge in E.
    destruct (de_be _ =? 0)%N; [discriminate|]. destruct (N.of_nat _ <? _)%N; [discriminate|]. destruct (maxsig <? _)%N; [discriminate|].
    injection Ho as <- _. lia. }
  destruct (derive_ok _ _ _ _ _ _ _ _ Hf Hsz H) as [_ HH]. destruct (HH eq_refl) as (_ & _ & sig' & Hsig & Hout). cbn in Hsig.
  destruct (sign_check_ok _ _ _ _ _ _ _ _ Hh Hsig Hs1 Hs2 Hk) as (-> & c & x & Hp & _ & Hsb).
  fold sig in Hp, Hout. destruct (c35_resign_ok maxsig f size old sig Hlen Ho Hne Hmax) as [Hopen Hpre].
  exists (append_signature (firstn size f) sig), c, x. split; [exact Hout|]. split; [exact Hopen|].
  assert (Hpre' : firstn size (append_signature (firstn size f) sig) = firstn size f) by exact Hpre.
  split; [exact Hpre'|]. split; [exact Hp|]. rewrite Hpre'. exact Hsb.
Qed.

(** replace-signature with a keyring: check_bundle with this keyring accepts the new file *)
Lemma replace_checked_ok : forall (e : renv) (conf : option string -> option string -> keyconf) L P load inner verity cf trust excl access
    fs inp out f size k fs' k',
  (forall p d, k_path (conf p d) = p /\ k_dir (conf p d) = d) -> honest L P ->
  fs inp = Some f -> size <= List.length f ->
  replace_signature e (fun p d v g => match check L (conf p d) load inner verity cf (mkBparams v trust) false g excl access with Ok _ => true | _ => false end)
    fs inp out size k = (true, fs', k') ->
  deciding k <> (None, None) ->
  exists g sz raw sig c x, fs' out = Some g /\ firstn size g = firstn size f /\ open_local (bc_maxsig cf) g = Ok (sz, raw) /\
    (if is_enveloped L raw then decrypt L raw = Some sig else sig = raw) /\
    ssl_parse L sig = Some c /\
    (signed_by L P (conf (fst (deciding k)) (snd (deciding k))) c x (firstn sz g) \/
     exists m, cs_content c = Some m /\ signed_by L P (conf (fst (deciding k)) (snd (deciding k))) c x m).
Proof.
  intros e conf L P load inner verity cf trust excl access fs inp out f size k fs' k' _ Hh Hf Hs H Hd.
  destruct (replace_ok _ _ _ _ _ _ _ _ _ _ _ Hf Hs H) as [_ HH]. destruct (HH eq_refl) as (_ & _ & sig & g & _ & Hg & Hout & Hchk).
  assert (Hver : match deciding k with (None, None) => false | _ => true end = true) by (destruct (deciding k) as [[|] [|]]; congruence).
  rewrite Hver in Hchk.
  destruct (check L (conf (fst (deciding k)) (snd (deciding k))) load inner verity cf (mkBparams true trust) false g excl access) as [b| |] eqn:Eb; try discriminate.
  destruct (check_signed_ok _ _ _ _ _ _ _ _ _ _ _ _ _ Hh Eb eq_refl) as (sz & raw & sg & c & x & Ho & He & Hp & Hcase).
  exists g, sz, raw, sg, c, x. split; [exact Hout|]. split.
  { rewrite Hg. rewrite firstn_app. rewrite firstn_firstn, Nat.min_id. rewrite firstn_length, Nat.min_l by lia. rewrite Nat.sub_diag. cbn. apply app_nil_r. }
  split; [exact Ho|]. split; [exact He|]. split; [exact Hp|].
  destruct Hcase as [(_ & _ & H1)|(m & mf & H1 & H2 & _)]; [left; exact H1|right; eauto].
Qed.
