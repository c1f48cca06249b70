(** C56: cms_verify_bytes for any number of signers, check-purpose=codesign, appended signatures;
    C57: another program creates the output in between. *)
From Verif Require Import Base BaseLemmas Image KeyFile Hex Semver Manifest Bundle BundleSpec Signature SignatureSpec SignatureProofs
  Resign ResignProofs.

(** every signer of [c] has a certificate trusted by the store, and signed [data] *)
Definition all_trusted (L : openssl) (P : pki) (st : store) (c : cms) (data : bytes) : Prop :=
  cs_signers c <> [] /\
  forall s, In s (cs_signers c) -> exists x rest, si_cert s = Some x /\ ssl_sig L s data = true /\ chain_ok P (cms_store st) x rest.

(** what was to be checked, and what is returned *)
Definition checked_data (content : option bytes) (c : cms) (data : bytes) (out : option bytes) : Prop :=
  (content = Some data /\ cs_content c = None /\ out = None) \/ (content = None /\ cs_content c = Some data /\ out = Some data).

Lemma check_cns_in : forall allowed l, check_cns allowed l = true -> exists x cn, In x l /\ ct_cn x = Some cn /\ In cn allowed /\ has_nul cn = false.
Proof.
  intros allowed l. induction l as [|x r IH]; cbn; [discriminate|]. intros H. destruct (ct_cn x) as [cn|] eqn:E.
  - destruct (has_nul cn) eqn:En; [discriminate|]. destruct (existsb (String.eqb cn) allowed) eqn:Ee.
    + apply existsb_exists in Ee. destruct Ee as (y & Hy & He). apply String.eqb_eq in He. subst y. exists x, cn. auto.
    + destruct (IH H) as (y & c & Hy & Hr). exists y, c. auto.
  - destruct (IH H) as (y & c & Hy & Hr). exists y, c. auto.
Qed.
Lemma check_cns_complete : forall allowed l, (forall y d, In y l -> ct_cn y = Some d -> has_nul d = false) ->
  (exists x cn, In x l /\ ct_cn x = Some cn /\ In cn allowed) -> check_cns allowed l = true.
Proof.
  intros allowed l Hn (x & cn & Hx & Hc & Ha). induction l as [|y r IH]; [destruct Hx|]. cbn. destruct (ct_cn y) as [d|] eqn:E.
  - rewrite (Hn y d (or_introl eq_refl) E). destruct (existsb (String.eqb d) allowed) eqn:Ee; [reflexivity|].
    destruct Hx as [->|Hx].
    + assert (d = cn) by congruence. subst d. assert (existsb (String.eqb cn) allowed = true); [|congruence].
      apply existsb_exists. exists cn. split; [exact Ha|apply String.eqb_refl].
    + apply IH; [|exact Hx]. intros y' d' Hy'. apply Hn. right. exact Hy'.
  - destruct Hx as [->|Hx]; [congruence|]. apply IH; [|exact Hx]. intros y' d' Hy'. apply Hn. right. exact Hy'.
Qed.
Lemma in_signer_certs : forall c x, In x (signer_certs c) <-> exists s, In s (cs_signers c) /\ si_cert s = Some x.
Proof.
  intros c x. unfold signer_certs. rewrite in_flat_map. split.
  - intros (s & Hs & Hx). exists s. split; [exact Hs|]. destruct (si_cert s) as [y|]; [|destruct Hx]. destruct Hx as [->|[]]. reflexivity.
  - intros (s & Hs & Hx). exists s. split; [exact Hs|]. rewrite Hx. left. reflexivity.
Qed.
Lemma cms_verify_trusted : forall L P st c data, honest L P -> cms_verify L st c data = true -> all_trusted L P st c data.
Proof.
  intros L P st c data Hh H. unfold cms_verify in H. apply andb_prop in H. destruct H as [H1 H2]. split.
  - intros E. rewrite E in H1. discriminate.
  - intros s Hs. rewrite forallb_forall in H2. specialize (H2 s Hs). cbn in H2. destruct (si_cert s) as [x|]; [|discriminate].
    destruct (ssl_chain L (cms_store st) x (cs_certs c)) as [ch|] eqn:E; [|discriminate].
    destruct (Hh _ _ _ _ E) as (rest & _ & Hr). exists x, rest. auto.
Qed.

Lemma verify_bytes_ok : forall L P K st content want sig c st' out,
  honest L P -> verify_bytes L K st content want sig = Some (c, st', out) ->
  ssl_parse L sig = Some c /\ cs_type c = TSigned /\
  (exists data, checked_data content c data out /\ all_trusted L P st' c data) /\
  (want = true <-> out <> None) /\
  (k_signing_time K = false -> st' = st) /\
  (k_signing_time K = true -> exists s t, cs_signers c = [s] /\ signing_time s = Some t /\ (0 <= t)%Z /\ st' = with_time st t) /\
  (forall l, k_cns K = Some l -> exists s x, In s (cs_signers c) /\ si_cert s = Some x /\ cn_allowed K x).
Proof.
  intros L P K st content want sig c st' out Hh H. unfold verify_bytes in H. destruct (ssl_parse L sig) as [c0|] eqn:Ep; [|discriminate].
  destruct (cs_type c0) eqn:Et; try discriminate.
  assert (Hrun : forall data o,
    match (if k_signing_time K then match get_signingtime c0 with Some t => Some (with_time st t) | None => None end else Some st) with
    | None => None
    | Some st' => if cms_verify L st' c0 data then if check_signer_cns K c0 then Some (c0, st', o) else None else None
    end = Some (c, st', out) ->
    c0 = c /\ o = out /\ all_trusted L P st' c data /\ (k_signing_time K = false -> st' = st) /\
    (k_signing_time K = true -> exists s t, cs_signers c = [s] /\ signing_time s = Some t /\ (0 <= t)%Z /\ st' = with_time st t) /\
    (forall l, k_cns K = Some l -> exists s x, In s (cs_signers c) /\ si_cert s = Some x /\ cn_allowed K x)).
  { intros data o Hr.
    destruct (if k_signing_time K then match get_signingtime c0 with Some t => Some (with_time st t) | None => None end else Some st) as [st1|] eqn:Es; [|discriminate].
    destruct (cms_verify L st1 c0 data) eqn:Ev; [|discriminate]. destruct (check_signer_cns K c0) eqn:Ec; [|discriminate].
    injection Hr as <- <- <-. split; [reflexivity|]. split; [reflexivity|]. split; [exact (cms_verify_trusted _ _ _ _ _ Hh Ev)|].
    split; [intros E; rewrite E in Es; congruence|]. split.
    - intros E. rewrite E in Es. unfold get_signingtime in Es. destruct (cs_signers c0) as [|s [|? ?]] eqn:Esg; try discriminate.
      destruct (si_time s) as [[| |t]|] eqn:Eti; try discriminate. destruct (t <? 0)%Z eqn:El; [discriminate|]. injection Es as <-.
      exists s, t. split; [reflexivity|]. unfold signing_time. rewrite Eti. split; [reflexivity|]. split; [lia|reflexivity].
    - intros l El. unfold check_signer_cns in Ec. rewrite El in Ec. destruct (check_cns_in _ _ Ec) as (x & cn & Hx & Hcn & Hin & Hn).
      apply in_signer_certs in Hx. destruct Hx as (s & Hs & Hsx). exists s, x. split; [exact Hs|]. split; [exact Hsx|].
      unfold cn_allowed. rewrite El. exists cn. auto. }
  destruct (cs_content c0) as [inner|] eqn:Ei; destruct content as [data|]; try discriminate; destruct want; try discriminate;
    destruct (Hrun _ _ H) as (-> & <- & Ha & Hr1 & Hr2 & Hr3).
  - split; [reflexivity|]. split; [exact Et|]. split; [exists inner; split; [right; auto|exact Ha]|]. split; [split; [discriminate|reflexivity]|]. auto.
  - split; [reflexivity|]. split; [exact Et|]. split; [exists data; split; [left; auto|exact Ha]|]. split; [split; [discriminate|intros HH; exfalso; apply HH; reflexivity]|]. auto.
Qed.

(** and they are accepted; with several signers only without use-bundle-signing-time *)
Lemma verify_bytes_complete_ok : forall L P K st (content : option bytes) sig c data out,
  complete L P -> k_signing_time K = false ->
  ssl_parse L sig = Some c -> cs_type c = TSigned -> checked_data content c data out ->
  cs_signers c <> [] ->
  (forall s, In s (cs_signers c) -> exists x rest, si_cert s = Some x /\ ssl_sig L s data = true /\ chain_ok P (cms_store st) x rest /\
     (forall y, In y rest -> In y (cs_certs c) \/ p_keyring P (st_path st) (st_dir st) y = true) /\
     (forall cn, ct_cn x = Some cn -> has_nul cn = false)) ->
  (exists s x, In s (cs_signers c) /\ si_cert s = Some x /\ cn_allowed K x) ->
  verify_bytes L K st content (match content with None => true | Some _ => false end) sig = Some (c, st, out).
Proof.
  intros L P K st content sig c data out Hc Hk Hp Ht Hd Hne Hall Hcn. unfold verify_bytes. rewrite Hp, Ht, Hk.
  assert (Hv : cms_verify L st c data = true).
  { unfold cms_verify. apply andb_true_intro. split; [destruct (cs_signers c); [congruence|reflexivity]|].
    apply forallb_forall. intros s Hs. destruct (Hall s Hs) as (x & rest & -> & Hsig & Hch & Hin & _).
    destruct (Hc _ _ (cs_certs c) _ Hch Hin) as [ch ->]. exact Hsig. }
  assert (Hcns : check_signer_cns K c = true).
  { unfold check_signer_cns. destruct (k_cns K) as [l|] eqn:El; [|reflexivity]. apply check_cns_complete.
    - intros y d Hy Hdd. apply in_signer_certs in Hy. destruct Hy as (s & Hs & Hsy). destruct (Hall s Hs) as (x & rest & Hx & _ & _ & _ & Hn).
      assert (x = y) by congruence. subst x. apply Hn, Hdd.
    - destruct Hcn as (s & x & Hs & Hx & Hcn). unfold cn_allowed in Hcn. rewrite El in Hcn. destruct Hcn as (cn & H1 & H2 & _).
      exists x, cn. split; [apply in_signer_certs; exists s; auto|auto]. }
  destruct Hd as [(-> & -> & ->)|(-> & -> & ->)]; rewrite Hv, Hcns; reflexivity.
Qed.

(** an appended signature: same content, one more signer, all certificates needed *)
Lemma append_keeps_ok : forall L P K st sig sig' c m s x rest inter,
  complete L P -> honest L P -> k_signing_time K = false ->
  (exists out, verify_bytes L K st None true sig = Some (c, st, out)) -> cs_content c = Some m ->
  (forall y cn, In y (signer_certs c) \/ y = x -> ct_cn y = Some cn -> has_nul cn = false) ->
  (forall y z zs, In z (signer_certs c) -> chain_ok P (cms_store st) z zs -> In y zs -> In y (cs_certs c) \/ p_keyring P (st_path st) (st_dir st) y = true) ->
  ssl_parse L sig' = Some (append_signer c inter x s) ->
  ssl_sig L (mkSigner (si_id s) (Some x) (si_time s)) m = true -> chain_ok P (cms_store st) x rest ->
  (forall y, In y rest -> In y inter \/ p_keyring P (st_path st) (st_dir st) y = true) ->
  verify_bytes L K st None true sig' = Some (append_signer c inter x s, st, Some m).
Proof.
  intros L P K st sig sig' c m s x rest inter Hc Hh Hk (out & Hv) Hm Hn Hcov Hp' Hs Hch Hin.
  destruct (verify_bytes_ok _ _ _ _ _ _ _ _ _ _ Hh Hv) as (Hp & Ht & (data & Hd & Hne & Hall) & _ & _ & _ & Hcns).
  assert (data = m) by (destruct Hd as [(H & _)|(_ & H & _)]; congruence). subst data.
  apply (verify_bytes_complete_ok L P K st None sig' (append_signer c inter x s) m (Some m) Hc Hk Hp'); [exact Ht|right; auto| | |].
  - cbn. destruct (cs_signers c); discriminate.
  - intros s' Hs'. cbn in Hs'. apply in_app_or in Hs'. destruct Hs' as [Hs'|[<-|[]]].
    + destruct (Hall s' Hs') as (y & zs & Hy & Hsg & Hzs). exists y, zs. split; [exact Hy|]. split; [exact Hsg|]. split; [exact Hzs|]. split.
      * intros z Hz. assert (Hiny : In y (signer_certs c)) by (apply in_signer_certs; exists s'; auto).
        destruct (Hcov z y zs Hiny Hzs Hz) as [H|H]; [left; cbn; apply in_or_app; left; exact H|right; exact H].
      * intros cn. apply Hn. left. apply in_signer_certs. exists s'. auto.
    + exists x, rest. split; [reflexivity|]. split; [exact Hs|]. split; [exact Hch|]. split.
      * intros z Hz. destruct (Hin z Hz) as [H|H]; [left; cbn; apply in_or_app; right; apply in_or_app; left; exact H|right; exact H].
      * intros cn. apply Hn. right. reflexivity.
  - destruct (k_cns K) as [l|] eqn:El.
    + destruct (Hcns l eq_refl) as (s' & y & H1 & H2 & H3). exists s', y. split; [cbn; apply in_or_app; left; exact H1|]. split; [exact H2|exact H3].
    + exists (mkSigner (si_id s) (Some x) (si_time s)), x. split; [cbn; apply in_or_app; right; left; reflexivity|]. split; [reflexivity|].
      unfold cn_allowed. rewrite El. exact I.
Qed.
Lemma append_certs_ok : forall c inter x s y, In y (cs_certs (append_signer c inter x s)) <-> In y (cs_certs c) \/ In y inter \/ y = x.
Proof.
  intros c inter x s y. cbn. rewrite !in_app_iff. cbn. split; [intros [H|[H|[H|[]]]]; auto|intros [H|[H|H]]; auto].
Qed.

(** check-purpose=codesign in system.conf *)
Lemma codesign_ok : forall L P K load inner verity cf pr (remote : bool) f excl access b,
  honest L P -> k_purpose K = config_purpose (Some "codesign") ->
  check L K load inner verity cf pr remote f excl access = Ok b -> bp_verify pr = true ->
  exists x rest, code_signer x /\ Forall code_ca rest /\ linked P (x :: rest) /\ p_keyring P (k_path K) (k_dir K) (last (x :: rest) x) = true /\
    exists size raw sig c data,
      (if remote then open_remote (bc_maxsig cf) f else open_local (bc_maxsig cf) f) = Ok (size, raw) /\
      (if is_enveloped L raw then decrypt L raw = Some sig else sig = raw) /\
      ssl_parse L sig = Some c /\ signed_by L P K c x data.
Proof.
  intros L P K load inner verity cf pr remote f excl access b Hh Hk H Hv.
  destruct (check_signed_ok _ _ _ _ _ _ _ _ _ _ _ _ _ Hh H Hv) as (size & raw & sig & c & x & Ho & He & Hp & Hcase).
  assert (Hs : exists data, signed_by L P K c x data).
  { destruct Hcase as [(_ & _ & Hs)|(m & mf & _ & Hs & _)]; eauto. }
  destruct Hs as (data & Hs). pose proof Hs as (_ & s & _ & _ & _ & (rest & Ht) & _).
  destruct Ht as (Hl & Hkr & _ & _ & _ & _ & Hcs & _). destruct (Hcs Hk) as [H1 H2].
  exists x, rest. split; [exact H1|]. split; [exact H2|]. split; [exact Hl|]. split; [exact Hkr|].
  exists size, raw, sig, c, data. auto.
Qed.
(** any other purpose is used as it is *)
Lemma other_purpose_ok : forall s, s <> "codesign" -> config_purpose (Some s) = Some s.
Proof. intros s H. cbn. apply String.eqb_neq in H. rewrite H. reflexivity. Qed.

(** *** the output appears between the check and the copy *)
Lemma shared_ok : forall e between fs inp out size ok fs', derive_shared e between fs inp out size = (ok, fs') ->
  (forall p, p <> out -> fs' p = fs p \/ fs' p = between fs p) /\
  (between fs out <> None -> ok = false) /\
  (ok = true -> exists f sig, between fs inp = Some f /\ between fs out = None /\
     e_sig e (firstn size f ++ repeat "000"%char (size - List.length f)) = Some sig /\
     fs' out = Some ((firstn size f ++ repeat "000"%char (size - List.length f)) ++ sig ++ be64 (N.of_nat (List.length sig)))).
Proof.
  intros e between fs inp out size ok fs' H. unfold derive_shared in H. destruct (fs out) as [o|] eqn:Eo.
  { injection H as <- <-. split; [auto|]. split; [reflexivity|discriminate]. }
  unfold derive_from in H. set (g := between fs) in *. unfold tempfile_cleanup in H.
  assert (Hg : forall v p, p <> out -> fset g out v p = fs p \/ fset g out v p = g p) by (intros v p Hp; right; apply fset_neq, Hp).
  destruct (e_prepare e); cbn [negb] in H.
  2:{ injection H as <- <-. split; [apply Hg|]. split; [reflexivity|discriminate]. }
  unfold truncate_file in H. destruct (g inp) as [f|] eqn:Ei.
  2:{ cbn [negb] in H. injection H as <- <-. split; [apply Hg|]. split; [reflexivity|discriminate]. }
  destruct (g out) as [o|] eqn:Ego.
  { cbn [negb] in H. injection H as <- <-. split; [apply Hg|]. split; [reflexivity|discriminate]. }
  assert (Hg2 : forall v w p, p <> out -> fset (fset g out w) out v p = fs p \/ fset (fset g out w) out v p = g p)
    by (intros v w p Hp; right; rewrite !fset_neq by exact Hp; reflexivity).
  assert (Hg3 : forall u v w p, p <> out -> fset (fset (fset g out w) out v) out u p = fs p \/ fset (fset (fset g out w) out v) out u p = g p)
    by (intros u v w p Hp; right; rewrite !fset_neq by exact Hp; reflexivity).
  destruct (e_copy e); cbn [negb] in H.
  - rewrite fset_eq in H. unfold append_file in H. rewrite fset_eq in H.
    destruct (e_sig e (firstn size f ++ repeat "000"%char (size - List.length f))) as [sig|] eqn:Es.
    2:{ injection H as <- <-. split; [apply Hg2|]. split; [reflexivity|discriminate]. }
    destruct (e_append e).
    + injection H as <- <-. split; [apply Hg2|]. split; [congruence|]. intros _. exists f, sig. split; [reflexivity|]. split; [reflexivity|].
      split; [exact Es|]. rewrite fset_eq. reflexivity.
    + injection H as <- <-. split; [apply Hg2|]. split; [reflexivity|discriminate].
    + injection H as <- <-. split; [apply Hg3|]. split; [reflexivity|discriminate].
  - injection H as <- <-. split; [apply Hg|]. split; [reflexivity|discriminate].
  - injection H as <- <-. split; [apply Hg2|]. split; [reflexivity|discriminate].
Qed.
(** without interference it is the same *)
Lemma shared_alone_ok : forall e fs inp out size, derive_shared e (fun g => g) fs inp out size = derive e fs inp out size.
Proof. reflexivity. Qed.
(** the file the other program made is never overwritten, but it is removed *)
Lemma shared_removed_refuted : forall e between fs inp out size g,
  fs out = None -> between fs out = Some g ->
  fst (derive_shared e between fs inp out size) = false /\ snd (derive_shared e between fs inp out size) out = None.
Proof.
  intros e between fs inp out size g H0 Hg.
  destruct (derive_shared e between fs inp out size) as [ok fs'] eqn:E. cbn [fst snd].
  pose proof (shared_ok _ _ _ _ _ _ _ _ E) as (_ & Hok & _). split; [apply Hok; congruence|].
  unfold derive_shared in E. rewrite H0 in E. unfold derive_from, tempfile_cleanup, truncate_file in E.
  destruct (e_prepare e); cbn [negb] in E; [|injection E as <- <-; apply fset_eq].
  rewrite Hg in E. destruct (between fs inp); cbn [negb] in E; injection E as <- <-; apply fset_eq.
Qed.
