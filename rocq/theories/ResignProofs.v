From Verif Require Import Base BaseLemmas Image KeyFile Hex Semver Manifest Bundle BundleSpec Signature Resign.

Lemma fset_eq : forall fs p v, fset fs p v p = v.
Proof. intros. unfold fset. rewrite String.eqb_refl. reflexivity. Qed.
Lemma fset_neq : forall fs p v q, q <> p -> fset fs p v q = fs q.
Proof. intros fs p v q H. unfold fset. apply String.eqb_neq in H. rewrite H. reflexivity. Qed.

Definition others (out : string) (fs fs' : rfs) : Prop := forall p, p <> out -> fs' p = fs p.
Lemma others_refl : forall out fs, others out fs fs.
Proof. intros out fs p _. reflexivity. Qed.
Lemma others_set : forall out fs fs' v, others out fs fs' -> others out fs (fset fs' out v).
Proof. intros out fs fs' v H p Hp. rewrite fset_neq by exact Hp. apply H, Hp. Qed.
Lemma cleanup_same : forall out fs fs', fs out = None -> others out fs fs' -> forall p, tempfile_cleanup fs' out p = fs p.
Proof.
  intros out fs fs' H0 H p. unfold tempfile_cleanup. destruct (String.eqb_spec p out) as [->|Hn].
  - rewrite fset_eq. symmetry; exact H0.
  - rewrite fset_neq by exact Hn. apply H, Hn.
Qed.

Lemma truncate_spec : forall fs inp out size o ok fs', truncate_file fs inp out size o = (ok, fs') -> fs out = None ->
  others out fs fs' /\
  (ok = true -> o = Complete /\ exists f, fs inp = Some f /\ (size <= List.length f -> fs' out = Some (firstn size f))).
Proof.
  intros fs inp out size o ok fs' H H0. unfold truncate_file in H. rewrite H0 in H. destruct (fs inp) as [f|] eqn:Ei.
  - destruct o; injection H as <- <-.
    + split; [apply others_set, others_refl|]. intros _. split; [reflexivity|]. exists f. split; [reflexivity|].
      intros Hs. rewrite fset_eq. replace (size - List.length f) with 0 by lia. cbn. rewrite app_nil_r. reflexivity.
    + split; [apply others_refl|discriminate].
    + split; [apply others_set, others_refl|discriminate].
  - injection H as <- <-. split; [apply others_refl|discriminate].
Qed.
Lemma append_spec : forall fs out sig o ok fs', append_file fs out sig o = (ok, fs') ->
  others out fs fs' /\
  (ok = true -> o = Complete /\ exists f, fs out = Some f /\ fs' out = Some (append_signature f sig)).
Proof.
  intros fs out sig o ok fs' H. unfold append_file in H. destruct (fs out) as [f|] eqn:Ei.
  - destruct o; injection H as <- <-.
    + split; [apply others_set, others_refl|]. intros _. split; [reflexivity|]. exists f. split; [reflexivity|]. apply fset_eq.
    + split; [apply others_refl|discriminate].
    + split; [apply others_set, others_refl|discriminate].
  - injection H as <- <-. split; [apply others_refl|discriminate].
Qed.
Lemma others_trans : forall out a b c, others out a b -> others out b c -> others out a c.
Proof. intros out a b c H1 H2 p Hp. rewrite H2 by exact Hp. apply H1, Hp. Qed.

Lemma derive_ok : forall e fs inp out size f ok fs',
  fs inp = Some f -> size <= List.length f -> derive e fs inp out size = (ok, fs') ->
  (ok = false -> forall p, fs' p = fs p) /\
  (ok = true -> fs out = None /\ (forall p, p <> out -> fs' p = fs p) /\
     exists sig, e_sig e (firstn size f) = Some sig /\
       fs' out = Some (firstn size f ++ sig ++ be64 (N.of_nat (List.length sig)))).
Proof.
  intros e fs inp out size f ok fs' Hf Hs H. unfold derive, derive_from in H. destruct (fs out) as [o|] eqn:Eo.
  { injection H as <- <-. split; [reflexivity|discriminate]. }
  destruct (e_prepare e); cbn [negb] in H.
  2:{ injection H as <- <-. split; [intros _ p; apply cleanup_same; [exact Eo|apply others_refl]|discriminate]. }
  destruct (truncate_file fs inp out size (e_copy e)) as [ok1 fs1] eqn:E1. destruct (truncate_spec _ _ _ _ _ _ _ E1 Eo) as [H1 H1'].
  destruct ok1; cbn [negb] in H.
  2:{ injection H as <- <-. split; [intros _ p; apply cleanup_same; [exact Eo|exact H1]|discriminate]. }
  destruct (H1' eq_refl) as (_ & f' & Hf' & Hout). assert (f' = f) by congruence. subst f'. specialize (Hout Hs). rewrite Hout in H.
  destruct (e_sig e (firstn size f)) as [sig|] eqn:Es.
  2:{ injection H as <- <-. split; [intros _ p; apply cleanup_same; [exact Eo|exact H1]|discriminate]. }
  destruct (append_file fs1 out sig (e_append e)) as [ok2 fs2] eqn:E2. destruct (append_spec _ _ _ _ _ _ E2) as [H2 H2'].
  destruct ok2; injection H as <- <-.
  - split; [discriminate|]. intros _. split; [reflexivity|]. split; [exact (others_trans _ _ _ _ H1 H2)|].
    exists sig. split; [reflexivity|]. destruct (H2' eq_refl) as (_ & g & Hg & Hg'). assert (g = firstn size f) by congruence. subst g. exact Hg'.
  - split; [|discriminate]. intros _ p. apply cleanup_same; [exact Eo|exact (others_trans _ _ _ _ H1 H2)].
Qed.

Lemma derive_completes_ok : forall e fs inp out size f sig,
  fs inp = Some f -> size <= List.length f -> fs out = None ->
  e_prepare e = true -> e_copy e = Complete -> e_append e = Complete -> e_sig e (firstn size f) = Some sig ->
  exists fs', derive e fs inp out size = (true, fs').
Proof.
  intros e fs inp out size f sig Hf Hs Ho Hp Hc Ha Hsig. unfold derive, derive_from. rewrite Ho, Hp, Hc. cbn [negb].
  unfold truncate_file. rewrite Hf, Ho. cbn [negb]. rewrite fset_eq.
  replace (size - List.length f) with 0 by lia. cbn [repeat]. rewrite app_nil_r, Hsig, Ha.
  unfold append_file. rewrite fset_eq. eexists. reflexivity.
Qed.

(** the keyring which decides about the result of replace-signature *)
Definition deciding (k : ksettings) : option string * option string :=
  match ks_signing k with
  | Some (_, p) => (Some p, None)
  | None => (option_map snd (ks_path k), option_map snd (ks_dir k))
  end.

Lemma restore_signing : forall r k0 k, ks_signing (restore r k0 k) = ks_signing k.
Proof. intros r k0 k. unfold restore. destruct r, (ks_signing k0), (ks_path k0), (ks_dir k0); reflexivity. Qed.
Lemma use_signing_signing : forall k, ks_signing (use_signing k) = ks_signing k.
Proof. intros k. unfold use_signing. destruct (ks_signing k) eqn:E; cbn; congruence. Qed.

Lemma replace_ok : forall e chk fs inp out size f k ok fs' k',
  fs inp = Some f -> size <= List.length f -> replace_signature e chk fs inp out size k = (ok, fs', k') ->
  (ok = false -> forall p, fs' p = fs p) /\
  (ok = true -> fs out = None /\ (forall p, p <> out -> fs' p = fs p) /\
     exists sig g, e_sig e [] = Some sig /\ g = firstn size f ++ sig ++ be64 (N.of_nat (List.length sig)) /\ fs' out = Some g /\
       chk (fst (deciding k)) (snd (deciding k)) (match deciding k with (None, None) => false | _ => true end) g = true).
Proof.
  intros e chk fs inp out size f k ok fs' k' Hf Hs H. unfold replace_signature in H. destruct (fs out) as [o|] eqn:Eo.
  { injection H as <- <- _. split; [reflexivity|discriminate]. }
  destruct (e_prepare e); cbn [negb] in H.
  2:{ injection H as <- <- _. split; [intros _ p; apply cleanup_same; [exact Eo|apply others_refl]|discriminate]. }
  destruct (e_sig e []) as [sig|] eqn:Es.
  2:{ injection H as <- <- _. split; [intros _ p; apply cleanup_same; [exact Eo|apply others_refl]|discriminate]. }
  destruct (truncate_file fs inp out size (e_copy e)) as [ok1 fs1] eqn:E1. destruct (truncate_spec _ _ _ _ _ _ _ E1 Eo) as [H1 H1'].
  destruct ok1; cbn [negb] in H.
  2:{ injection H as <- <- _. split; [intros _ p; apply cleanup_same; [exact Eo|exact H1]|discriminate]. }
  destruct (H1' eq_refl) as (_ & f' & Hf' & Hout). assert (f' = f) by congruence. subst f'. specialize (Hout Hs).
  destruct (append_file fs1 out sig (e_append e)) as [ok2 fs2] eqn:E2. destruct (append_spec _ _ _ _ _ _ E2) as [H2 H2'].
  destruct ok2; cbn [negb] in H.
  2:{ injection H as <- <- _. split; [intros _ p; apply cleanup_same; [exact Eo|exact (others_trans _ _ _ _ H1 H2)]|discriminate]. }
  destruct (H2' eq_refl) as (_ & g & Hg & Hg'). assert (g = firstn size f) by congruence. subst g. rewrite Hg' in H.
  destruct (chk _ _ _ _) eqn:Ec in H; injection H as <- <- _.
  - split; [discriminate|]. intros _. split; [reflexivity|]. split; [exact (others_trans _ _ _ _ H1 H2)|].
    exists sig, (append_signature (firstn size f) sig). split; [reflexivity|]. split; [reflexivity|]. split; [exact Hg'|].
    unfold deciding, use_signing in *. destruct (ks_signing k) as [[i p]|]; cbn in *; [exact Ec|].
    destruct (option_map snd (ks_path k)); [exact Ec|]. destruct (option_map snd (ks_dir k)); exact Ec.
  - split; [|discriminate]. intros _ p. apply cleanup_same; [exact Eo|exact (others_trans _ _ _ _ H1 H2)].
Qed.

(** the settings are as before if there was something to restore *)
Lemma settings_ok : forall e chk fs inp out size k ok fs' k',
  replace_signature e chk fs inp out size k = (ok, fs', k') ->
  ks_path k <> None \/ ks_dir k <> None \/ ks_signing k = None -> k' = k.
Proof.
  intros e chk fs inp out size k ok fs' k' H Hk.
  assert (Hr0 : restore false k k = k) by (unfold restore; reflexivity).
  assert (Hr1 : restore true k (use_signing k) = k).
  { unfold restore, use_signing. destruct k as [p d s]. cbn in *. destruct s as [q|]; [|reflexivity].
    destruct p; [reflexivity|]. destruct d; [reflexivity|]. destruct Hk as [Hk|[Hk|Hk]]; congruence. }
  unfold replace_signature in H. destruct (fs out); [congruence|]. destruct (negb (e_prepare e)); [congruence|].
  destruct (e_sig e []); [|congruence]. destruct (truncate_file _ _ _ _ _) as [ok1 fs1]. destruct (negb ok1); [congruence|].
  destruct (append_file _ _ _ _) as [ok2 fs2]. destruct (negb ok2); [congruence|]. destruct (chk _ _ _ _); congruence.
Qed.

(** replace-signature --signing-keyring without a configured keyring: the string is freed
    twice when rauc exits *)
Lemma double_free_refuted : exists e chk fs k ok fs' k',
  replace_signature e chk fs "in.raucb" "out.raucb" 1 k = (ok, fs', k') /\ ok = true /\
  ks_path k = None /\ ks_dir k = None /\ NoDup (frees k) /\ ~ NoDup (frees k').
Proof.
  exists (mkRenv true Complete (fun _ => Some ["s"%char]) Complete), (fun _ _ _ _ => true),
    (fun p => if String.eqb p "in.raucb" then Some ["x"%char; "y"%char] else None),
    (mkKsettings None None (Some (1%N, "ca.pem"))).
  eexists _, _, _. split; [reflexivity|]. split; [reflexivity|]. split; [reflexivity|]. split; [reflexivity|]. split.
  - cbn. constructor; [intros []|constructor].
  - cbn. intros H. inversion H as [|? ? Hn _]. apply Hn. left. reflexivity.
Qed.

Lemma extract_ok : forall fs out sig o ok fs', extract_signature fs out sig o = (ok, fs') ->
  (forall p, p <> out -> fs' p = fs p) /\ (fs out <> None -> ok = false /\ fs' = fs) /\ (ok = true -> fs' out = Some sig).
Proof.
  intros fs out sig o ok fs' H. unfold extract_signature in H. destruct (fs out) eqn:E.
  - injection H as <- <-. split; [reflexivity|]. split; [split; reflexivity|discriminate].
  - destruct o; injection H as <- <-; (split; [intros p Hp; rewrite ?fset_neq by exact Hp; reflexivity|]);
      (split; [congruence|]); try discriminate. intros _. apply fset_eq.
Qed.
Lemma extract_partial_refuted : exists fs sig o fs',
  extract_signature fs "bundle.sig" sig o = (false, fs') /\ fs "bundle.sig" = None /\ fs' "bundle.sig" = Some ["a"%char].
Proof. exists (fun _ => None), ["a"%char; "b"%char], (FailsAfter 1). eexists. split; [reflexivity|]. split; reflexivity. Qed.
