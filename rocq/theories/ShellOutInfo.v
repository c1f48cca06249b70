From Verif Require Import Base BaseLemmas Slot Image Manifest KeyFile StatusFile EnvKey EnvKeyProofs ShellWords ShellOut ShellOutSpec ShellOutProofs.

Definition wimg (n : nat) (i : image) : list went :=
  [(["RAUC"; "IMAGE"; "NAME"; dec n], ne (im_filename i));
   (["RAUC"; "IMAGE"; "CLASS"; dec n], im_class i);
   (["RAUC"; "IMAGE"; "ARTIFACT"; dec n], ne (im_artifact i));
   (["RAUC"; "IMAGE"; "VARIANT"; dec n], ne (im_variant i));
   (["RAUC"; "IMAGE"; "DIGEST"; dec n], ne (im_digest i));
   (["RAUC"; "IMAGE"; "SIZE"; dec n], decz (im_size i));
   (["RAUC"; "IMAGE"; "HOOKS"; dec n], join " " (flagged [(im_pre i, "pre-install"); (im_install i, "install"); (im_post i, "post-install")]))]
  ++ match im_adaptive i with [] => [] | l => [(["RAUC"; "IMAGE"; "ADAPTIVE"; dec n], join " " l)] end
  ++ match im_convert i with [] => [] | l => [(["RAUC"; "IMAGE"; "CONVERT"; dec n], join " " l)] end
  ++ match im_converted i with [] => [] | l => [(["RAUC"; "IMAGE"; "CONVERTED"; dec n], join " " l)] end.
Definition whead (m : manifest) (hash : option string) : list went :=
  [(["RAUC"; "MF"; "COMPATIBLE"], ne (mf_compatible m));
   (["RAUC"; "MF"; "VERSION"], ne (mf_version m));
   (["RAUC"; "MF"; "DESCRIPTION"], ne (mf_description m));
   (["RAUC"; "MF"; "BUILD"], ne (mf_build m));
   (["RAUC"; "MF"; "HASH"], ne hash);
   (["RAUC"; "MF"; "FORMAT"], format_str (mf_format m));
   (["RAUC"; "MF"; "IMAGES"], dec (List.length (mf_images m)));
   (["RAUC"; "MF"; "HOOKS"], join " " (flagged [(mf_install_check m, "install-check")]))].
Definition wmeta (m : manifest) : list went := map (fun nv => (split_on "_" (fst nv), snd nv)) (meta_vars (mf_meta m)).
Definition winfo (m : manifest) (hash : option string) : list went := whead m hash ++ wmeta m ++ numbered wimg 0 (mf_images m).

Lemma wimg_eq : forall n i, map entry (map unw (wimg n i)) = img_entries n i.
Proof.
  intros n i. unfold wimg, img_entries.
  destruct (im_adaptive i); destruct (im_convert i); destruct (im_converted i); reflexivity.
Qed.
Lemma wmeta_eq : forall m, map unw (wmeta m) = meta_vars (mf_meta m).
Proof.
  intro m. unfold wmeta. rewrite map_map. rewrite <- (map_id (meta_vars (mf_meta m))) at 2. apply map_ext. intros [n v].
  unfold unw, wname. cbn [fst snd]. change "_" with (String "_" ""). rewrite join_split_on. reflexivity.
Qed.
Lemma winfo_eq : forall m hash, map entry (map unw (winfo m hash)) = info_entries m hash.
Proof.
  intros m hash. unfold winfo, info_entries. rewrite !map_app. apply f_equal2; [reflexivity |]. apply f_equal2.
  - rewrite wmeta_eq. reflexivity.
  - rewrite !numbered_map. apply numbered_ext. intros i x. apply wimg_eq.
Qed.

Ltac allc := repeat (first [apply Forall_nil | apply Forall_cons | apply Forall_app; split]); cbn [fst snd].
(** good entries *)
Definition good (e : went) : Prop := wok (fst e) = true /\ rauc_name (wname (fst e)) = true.
Lemma is_num_ok : forall w, all_chars is_num w = true -> all_chars (fun c => is_upper c || is_num c || Ascii.eqb c "_") w = true.
Proof. intros w H. eapply all_chars_impl; [| exact H]. intros [[] [] [] [] [] [] [] []] X; try discriminate X; reflexivity. Qed.
Lemma dec_ok : forall n, all_chars (fun c => is_upper c || is_num c || Ascii.eqb c "_") (dec n) = true.
Proof. intro n. apply is_num_ok. apply dec_chars. Qed.
Lemma rauc_name_app : forall a b, rauc_name a = true -> all_chars (fun c => is_upper c || is_num c || Ascii.eqb c "_") b = true -> rauc_name (a ++ b) = true.
Proof.
  intros a b H Hb. unfold rauc_name in *. apply andb_prop in H as [H1 H2]. rewrite all_chars_app, H2, Hb.
  assert (G : forall p x y, has_prefix p x = true -> has_prefix p (x ++ y) = true).
  { induction p as [| c p IH]; intros x y E; [destruct x; reflexivity |]. destruct x as [| d x]; [discriminate |]. cbn [has_prefix append] in *.
    apply andb_prop in E as [E1 E2]. rewrite E1, IH by assumption. reflexivity. }
  rewrite G by assumption. reflexivity.
Qed.
Lemma good1 : forall lit n v pre, rauc_name pre = true -> forallb (no_char "_") lit = true -> wname (lit ++ [dec n]) = (pre ++ dec n)%string -> good (lit ++ [dec n], v).
Proof.
  intros lit n v pre H1 H2 H3. split; cbn [fst].
  - unfold wok. destruct (lit ++ [dec n]) eqn:E; [destruct lit; discriminate |]. rewrite <- E, forallb_app, H2. cbn [forallb]. rewrite dec_no_us. reflexivity.
  - rewrite H3. apply rauc_name_app; [assumption | apply dec_ok].
Qed.
Lemma wimg_good : forall n i, Forall good (wimg n i).
Proof.
  intros n i. unfold wimg. repeat (apply Forall_app; split).
  - repeat apply Forall_cons; [.. | apply Forall_nil].
    + apply (good1 ["RAUC"; "IMAGE"; "NAME"] n _ "RAUC_IMAGE_NAME_"); reflexivity.
    + apply (good1 ["RAUC"; "IMAGE"; "CLASS"] n _ "RAUC_IMAGE_CLASS_"); reflexivity.
    + apply (good1 ["RAUC"; "IMAGE"; "ARTIFACT"] n _ "RAUC_IMAGE_ARTIFACT_"); reflexivity.
    + apply (good1 ["RAUC"; "IMAGE"; "VARIANT"] n _ "RAUC_IMAGE_VARIANT_"); reflexivity.
    + apply (good1 ["RAUC"; "IMAGE"; "DIGEST"] n _ "RAUC_IMAGE_DIGEST_"); reflexivity.
    + apply (good1 ["RAUC"; "IMAGE"; "SIZE"] n _ "RAUC_IMAGE_SIZE_"); reflexivity.
    + apply (good1 ["RAUC"; "IMAGE"; "HOOKS"] n _ "RAUC_IMAGE_HOOKS_"); reflexivity.
  - destruct (im_adaptive i); repeat constructor. all: apply (good1 ["RAUC"; "IMAGE"; "ADAPTIVE"] n (join " " (s :: l)) "RAUC_IMAGE_ADAPTIVE_"); reflexivity.
  - destruct (im_convert i); repeat constructor. all: apply (good1 ["RAUC"; "IMAGE"; "CONVERT"] n (join " " (s :: l)) "RAUC_IMAGE_CONVERT_"); reflexivity.
  - destruct (im_converted i); repeat constructor. all: apply (good1 ["RAUC"; "IMAGE"; "CONVERTED"] n (join " " (s :: l)) "RAUC_IMAGE_CONVERTED_"); reflexivity.
Qed.
Lemma env_chars : forall w, all_chars env_char w = true -> all_chars (fun c => is_upper c || is_num c || Ascii.eqb c "_") w = true.
Proof. intros w H. exact H. Qed.
Lemma wmeta_good : forall m, Forall good (wmeta m).
Proof.
  intro m. apply Forall_forall. intros [ws v] H. unfold wmeta in H. apply in_map_iff in H as ([n v'] & E & H). cbn [fst snd] in E. injection E as <- <-.
  apply c44_vars_ok in H as (g & kvs & k & eg & ek & _ & _ & -> & _ & _ & Cg & Ck). split; cbn [fst].
  - unfold wok. destruct (split_on "_" _) eqn:E; [exact (False_ind _ (split_on_nonempty _ _ E)) |]. rewrite <- E. apply forallb_forall. apply Forall_forall. apply split_on_no_char.
  - unfold wname. change "_" with (String "_" ""). rewrite join_split_on. change ("RAUC_META_" ++ eg ++ String "_" "" ++ ek)%string with ("RAUC_META_" ++ eg ++ "_" ++ ek)%string.
    apply rauc_name_app; [reflexivity |]. rewrite !all_chars_app, (env_chars _ Cg), (env_chars _ Ck). reflexivity.
Qed.
Lemma winfo_good : forall m hash, Forall good (winfo m hash).
Proof.
  intros m hash. unfold winfo. repeat (apply Forall_app; split).
  - unfold whead. repeat (apply Forall_cons; [split; reflexivity |]). apply Forall_nil.
  - apply wmeta_good.
  - apply numbered_forall. apply wimg_good.
Qed.
Lemma rauc_nameok : forall n, rauc_name n = true -> nameok n = true.
Proof.
  intros n H. unfold rauc_name in H. apply andb_prop in H as [H1 H2]. destruct n as [| c n]; [discriminate |].
  cbn [has_prefix] in H1. apply andb_prop in H1 as [H1 _]. apply Ascii.eqb_eq in H1 as <-. cbn [nameok]. cbn [all_chars] in H2. apply andb_prop in H2 as [_ H2].
  apply andb_true_intro. split; [reflexivity |]. eapply all_chars_impl; [| exact H2]. intros [[] [] [] [] [] [] [] []] X; try discriminate X; reflexivity.
Qed.
Lemma good_names : forall l, Forall good l -> forallb (fun kv => nameok (fst kv)) (map unw l) = true.
Proof.
  intros l H. apply forallb_forall. intros x Hx. apply in_map_iff in Hx as (e & <- & Hx). apply Forall_forall with (x := e) in H; [| assumption].
  destruct H as [_ H]. apply rauc_nameok. exact H.
Qed.
Lemma good_wok : forall l, Forall good l -> Forall (fun e => wok (fst e) = true) l.
Proof. intros l H. eapply Forall_impl; [| exact H]. intros e [X _]. exact X. Qed.

(** the output of rauc info is the list of assignments *)
Lemma info_text : forall m hash, exists out, info_shell m hash = Ok out /\ sh_eval out = Some (map unw (winfo m hash)).
Proof.
  intros m hash. pose proof (good_names _ (winfo_good m hash)) as G.
  destruct (env_text (map unw (winfo m hash))) as (b & E1 & E2); [discriminate | exact G |].
  exists (text_of (map unw (winfo m hash))). split; [| apply eval_text; exact G].
  unfold info_shell. rewrite <- winfo_eq, E1. cbn [bind]. rewrite <- E2. reflexivity.
Qed.
Lemma wlast_find : forall q m hash, wok q = true -> value_of (wname q) (map unw (winfo m hash)) = wlast q (winfo m hash).
Proof. intros. apply wlast_eq; [assumption |]. apply good_wok. apply winfo_good. Qed.

Lemma wimg_nums : forall n i ws v, In (ws, v) (wimg n i) -> nth_error (nums ws) 0 = Some (dec n).
Proof.
  intros n i ws v H.
  assert (G : forall a b c, isnum a = false -> isnum b = false -> isnum c = false -> ws = [a; b; c; dec n] -> nth_error (nums ws) 0 = Some (dec n)).
  { intros a b c A B C ->. unfold nums. cbn [filter]. rewrite A, B, C, dec_isnum. reflexivity. }
  unfold wimg in H. repeat (apply in_app_or in H as [H | H]).
  - cbn [In] in H. repeat (destruct H as [H | H]; [injection H as <- <-; eapply G; [| | | reflexivity]; reflexivity |]). contradiction.
  - destruct (im_adaptive i); [contradiction |]. destruct H as [H | []]. injection H as <- <-. eapply G; [| | | reflexivity]; reflexivity.
  - destruct (im_convert i); [contradiction |]. destruct H as [H | []]. injection H as <- <-. eapply G; [| | | reflexivity]; reflexivity.
  - destruct (im_converted i); [contradiction |]. destruct H as [H | []]. injection H as <- <-. eapply G; [| | | reflexivity]; reflexivity.
Qed.
Lemma wmeta_second : forall m ws v, In (ws, v) (wmeta m) -> nth_error ws 1 = Some "META".
Proof.
  intros m ws v H. unfold wmeta in H. apply in_map_iff in H as ([n v'] & E & H). cbn [fst snd] in E. injection E as <- <-.
  apply c44_vars_ok in H as (g & kvs & k & eg & ek & _ & _ & -> & _).
  change ("RAUC_META_" ++ eg ++ "_" ++ ek)%string with ("RAUC" ++ String "_" ("META" ++ String "_" (eg ++ "_" ++ ek)))%string.
  rewrite !split_on_cons by reflexivity. reflexivity.
Qed.
(** a variable of the head *)
Lemma head_var : forall m hash a v, wlast ["RAUC"; "MF"; a] (whead m hash) = v -> isnum a = false -> no_char "_" a = true ->
  value_of (wname ["RAUC"; "MF"; a]) (map unw (winfo m hash)) = v.
Proof.
  intros m hash a v H A U. rewrite wlast_find by (cbn; rewrite U; reflexivity). unfold winfo. rewrite !wlast_app, H.
  rewrite (wlast_none _ (numbered wimg 0 (mf_images m))).
  - rewrite wlast_none; [reflexivity |]. intros ws x Hx ->. apply wmeta_second in Hx. discriminate Hx.
  - intros ws x Hx ->. apply numbered_in in Hx as (i & y & _ & Hx). apply wimg_nums in Hx. unfold nums in Hx. cbn [filter] in Hx. rewrite A in Hx. discriminate Hx.
Qed.
(** a variable of an image *)
Lemma img_var : forall m hash a k, isnum a = false -> no_char "_" a = true ->
  value_of (wname ["RAUC"; "IMAGE"; a; dec k]) (map unw (winfo m hash))
  = match nth_error (mf_images m) k with Some i => wlast ["RAUC"; "IMAGE"; a; dec k] (wimg k i) | None => None end.
Proof.
  intros m hash a k A U. rewrite wlast_find by (cbn [wok forallb]; rewrite U, dec_no_us; reflexivity). unfold winfo. rewrite !wlast_app.
  rewrite (numbered_last wimg 0 _ k wimg_nums) by (unfold nums; cbn [filter]; rewrite A, dec_isnum; reflexivity).
  cbn [Nat.ltb Nat.leb]. rewrite Nat.sub_0_r.
  rewrite (wlast_none _ (wmeta m)) by (intros ws x Hx ->; apply wmeta_second in Hx; discriminate Hx).
  rewrite (wlast_none _ (whead m hash)).
  - destruct (nth_error (mf_images m) k); [| reflexivity]. destruct (wlast _ (wimg k i)); reflexivity.
  - intros ws x Hx ->. unfold whead in Hx. cbn [In] in Hx. repeat (destruct Hx as [Hx | Hx]; [discriminate Hx |]). contradiction.
Qed.

Definition list_var (l : list string) : option string := match l with [] => None | _ => Some (words l) end.
Definition flags (l : list (bool * string)) : string := words (map snd (filter fst l)).
Lemma flagged_flags : forall l, join " " (flagged l) = flags l.
Proof.
  intro l. unfold flags, words. f_equal. induction l as [| [[] w] l IH]; cbn; [reflexivity | | exact IH]. f_equal. exact IH.
Qed.

Lemma c64_info_ok : forall m hash, exists out, info_shell m hash = Ok out /\
  sets out "RAUC_MF_COMPATIBLE" (Some (or_empty (mf_compatible m))) /\
  sets out "RAUC_MF_VERSION" (Some (or_empty (mf_version m))) /\
  sets out "RAUC_MF_DESCRIPTION" (Some (or_empty (mf_description m))) /\
  sets out "RAUC_MF_BUILD" (Some (or_empty (mf_build m))) /\
  sets out "RAUC_MF_HASH" (Some (or_empty hash)) /\
  sets out "RAUC_MF_FORMAT" (Some (match mf_format m with F_PLAIN => "plain" | F_VERITY => "verity" | F_CRYPT => "crypt" end)) /\
  sets out "RAUC_MF_HOOKS" (Some (if mf_install_check m then "install-check" else "")) /\
  sets out "RAUC_MF_IMAGES" (Some (num (List.length (mf_images m)))) /\
  (forall k i, nth_error (mf_images m) k = Some i ->
     sets out ("RAUC_IMAGE_NAME_" ++ num k) (Some (or_empty (im_filename i))) /\
     sets out ("RAUC_IMAGE_CLASS_" ++ num k) (Some (im_class i)) /\
     sets out ("RAUC_IMAGE_ARTIFACT_" ++ num k) (Some (or_empty (im_artifact i))) /\
     sets out ("RAUC_IMAGE_VARIANT_" ++ num k) (Some (or_empty (im_variant i))) /\
     sets out ("RAUC_IMAGE_DIGEST_" ++ num k) (Some (or_empty (im_digest i))) /\
     ((0 <= im_size i)%Z -> sets out ("RAUC_IMAGE_SIZE_" ++ num k) (Some (print_num 10 (Z.to_N (im_size i))))) /\
     sets out ("RAUC_IMAGE_HOOKS_" ++ num k)
       (Some (flags [(im_pre i, "pre-install"); (im_install i, "install"); (im_post i, "post-install")])) /\
     sets out ("RAUC_IMAGE_ADAPTIVE_" ++ num k) (list_var (im_adaptive i)) /\
     sets out ("RAUC_IMAGE_CONVERT_" ++ num k) (list_var (im_convert i)) /\
     sets out ("RAUC_IMAGE_CONVERTED_" ++ num k) (list_var (im_converted i))) /\
  (forall k, List.length (mf_images m) <= k -> Forall (fun p => sets out (p ++ num k) None)
     ["RAUC_IMAGE_NAME_"; "RAUC_IMAGE_CLASS_"; "RAUC_IMAGE_ARTIFACT_"; "RAUC_IMAGE_VARIANT_"; "RAUC_IMAGE_DIGEST_"; "RAUC_IMAGE_SIZE_";
      "RAUC_IMAGE_HOOKS_"; "RAUC_IMAGE_ADAPTIVE_"; "RAUC_IMAGE_CONVERT_"; "RAUC_IMAGE_CONVERTED_"]).
Proof.
  intros m hash. destruct (info_text m hash) as (out & E & Ev). exists out. split; [exact E |].
  assert (S1 : forall n v, value_of n (map unw (winfo m hash)) = v -> sets out n v) by (intros n v H; eexists; split; [exact Ev | exact H]).
  repeat match goal with |- _ /\ _ => split end.
  - apply S1. apply (head_var m hash "COMPATIBLE"); reflexivity.
  - apply S1. apply (head_var m hash "VERSION"); reflexivity.
  - apply S1. apply (head_var m hash "DESCRIPTION"); reflexivity.
  - apply S1. apply (head_var m hash "BUILD"); reflexivity.
  - apply S1. apply (head_var m hash "HASH"); reflexivity.
  - apply S1. apply (head_var m hash "FORMAT"); reflexivity.
  - apply S1. apply (head_var m hash "HOOKS"); [| reflexivity | reflexivity]. cbn. destruct (mf_install_check m); reflexivity.
  - apply S1. apply (head_var m hash "IMAGES"); reflexivity.
  - intros k i N. change num with dec.
    assert (V : forall a v, isnum a = false -> no_char "_" a = true -> wlast ["RAUC"; "IMAGE"; a; dec k] (wimg k i) = v -> sets out (wname ["RAUC"; "IMAGE"; a; dec k]) v).
    { intros a v A U H. apply S1. rewrite img_var by assumption. rewrite N. exact H. }
    assert (C : forall a v, isnum a = false -> no_char "_" a = true -> wlast ["RAUC"; "IMAGE"; a; dec k] (wimg k i) = v ->
              sets out ("RAUC_IMAGE_" ++ a ++ "_" ++ dec k) v).
    { intros a v A U H. apply V in H; assumption. }
    clear V S1.
    repeat match goal with |- _ /\ _ => split end.
    all: try intro Z0.
    + apply (C "NAME"); [reflexivity | reflexivity |]. unfold wimg. rewrite !wlast_app. destruct (im_adaptive i), (im_convert i), (im_converted i); cbn [wlast weqb String.eqb Ascii.eqb Bool.eqb andb app]; rewrite ?String.eqb_refl; reflexivity.
    + apply (C "CLASS"); [reflexivity | reflexivity |]. unfold wimg. rewrite !wlast_app. destruct (im_adaptive i), (im_convert i), (im_converted i); cbn [wlast weqb String.eqb Ascii.eqb Bool.eqb andb app]; rewrite ?String.eqb_refl; reflexivity.
    + apply (C "ARTIFACT"); [reflexivity | reflexivity |]. unfold wimg. rewrite !wlast_app. destruct (im_adaptive i), (im_convert i), (im_converted i); cbn [wlast weqb String.eqb Ascii.eqb Bool.eqb andb app]; rewrite ?String.eqb_refl; reflexivity.
    + apply (C "VARIANT"); [reflexivity | reflexivity |]. unfold wimg. rewrite !wlast_app. destruct (im_adaptive i), (im_convert i), (im_converted i); cbn [wlast weqb String.eqb Ascii.eqb Bool.eqb andb app]; rewrite ?String.eqb_refl; reflexivity.
    + apply (C "DIGEST"); [reflexivity | reflexivity |]. unfold wimg. rewrite !wlast_app. destruct (im_adaptive i), (im_convert i), (im_converted i); cbn [wlast weqb String.eqb Ascii.eqb Bool.eqb andb app]; rewrite ?String.eqb_refl; reflexivity.
    + apply (C "SIZE"); [reflexivity | reflexivity |]. unfold wimg. rewrite !wlast_app.
      replace (decz (im_size i)) with (print_num 10 (Z.to_N (im_size i))) by (unfold decz; destruct (Z.ltb_spec (im_size i) 0); [lia | reflexivity]).
      destruct (im_adaptive i), (im_convert i), (im_converted i); cbn [wlast weqb String.eqb Ascii.eqb Bool.eqb andb app]; rewrite ?String.eqb_refl; reflexivity.
    + apply (C "HOOKS"); [reflexivity | reflexivity |]. unfold wimg. rewrite !wlast_app, flagged_flags. destruct (im_adaptive i), (im_convert i), (im_converted i); cbn [wlast weqb String.eqb Ascii.eqb Bool.eqb andb app]; rewrite ?String.eqb_refl; reflexivity.
    + apply (C "ADAPTIVE"); [reflexivity | reflexivity |]. unfold wimg. rewrite !wlast_app. destruct (im_adaptive i), (im_convert i), (im_converted i); cbn [wlast weqb String.eqb Ascii.eqb Bool.eqb andb app]; rewrite ?String.eqb_refl; reflexivity.
    + apply (C "CONVERT"); [reflexivity | reflexivity |]. unfold wimg. rewrite !wlast_app. destruct (im_adaptive i), (im_convert i), (im_converted i); cbn [wlast weqb String.eqb Ascii.eqb Bool.eqb andb app]; rewrite ?String.eqb_refl; reflexivity.
    + apply (C "CONVERTED"); [reflexivity | reflexivity |]. unfold wimg. rewrite !wlast_app. destruct (im_adaptive i), (im_convert i), (im_converted i); cbn [wlast weqb String.eqb Ascii.eqb Bool.eqb andb app]; rewrite ?String.eqb_refl; reflexivity.
  - intros k L. change num with dec. apply nth_error_None in L.
    assert (C : forall a, isnum a = false -> no_char "_" a = true -> sets out (wname ["RAUC"; "IMAGE"; a; dec k]) None).
    { intros a A U. apply S1. rewrite img_var by assumption. rewrite L. reflexivity. }
    repeat apply Forall_cons; [.. | apply Forall_nil].
    + apply (C "NAME"); reflexivity. + apply (C "CLASS"); reflexivity. + apply (C "ARTIFACT"); reflexivity. + apply (C "VARIANT"); reflexivity.
    + apply (C "DIGEST"); reflexivity. + apply (C "SIZE"); reflexivity. + apply (C "HOOKS"); reflexivity. + apply (C "ADAPTIVE"); reflexivity.
    + apply (C "CONVERT"); reflexivity. + apply (C "CONVERTED"); reflexivity.
Qed.

(** every assignment is to a RAUC_ variable, and the only ones a bundle's author can choose the name of are RAUC_META_ ones *)
Lemma c64_info_names_ok : forall m hash out l n v, info_shell m hash = Ok out -> sh_eval out = Some l -> In (n, v) l ->
  rauc_name n = true /\
  (has_prefix "RAUC_META_" n = true -> exists g kvs k, In (g, kvs) (mf_meta m) /\ In (k, v) kvs /\
     n = ("RAUC_META_" ++ smap env_conv g ++ "_" ++ smap env_conv k)%string) /\
  (has_prefix "RAUC_META_" n = false -> has_prefix "RAUC_MF_" n = true \/ has_prefix "RAUC_IMAGE_" n = true).
Proof.
  intros m hash out l n v E Ev H. destruct (info_text m hash) as (out' & E' & Ev'). rewrite E in E'. apply Ok_inj in E'. subst out'. rewrite Ev in Ev'. apply Some_inj in Ev'. subst l.
  apply in_map_iff in H as ([ws x] & U & H). unfold unw in U. cbn [fst snd] in U. injection U as <- <-.
  split; [exact (proj2 (proj1 (Forall_forall _ _) (winfo_good m hash) _ H)) |]. unfold winfo in H. apply in_app_or in H as [H | H]; [| apply in_app_or in H as [H | H]].
  - assert (P : has_prefix "RAUC_META_" (wname ws) = false /\ has_prefix "RAUC_MF_" (wname ws) = true).
    { unfold whead in H. cbn [In] in H. repeat (destruct H as [H | H]; [injection H as <- <-; split; reflexivity |]). contradiction. }
    destruct P as [-> ->]. split; [discriminate |]. left. reflexivity.
  - unfold wmeta in H. apply in_map_iff in H as ([n0 v'] & E0 & H). cbn [fst snd] in E0. injection E0 as <- <-.
    apply c44_vars_ok in H as (g & kvs & k & eg & ek & Hg & Hk & -> & -> & -> & _).
    unfold wname. change "_" with (String "_" "") at 1 4. rewrite join_split_on. split; [intros _; exists g, kvs, k; auto |]. intro X. cbn in X. discriminate X.
  - apply numbered_in in H as (i & y & _ & H).
    assert (P : exists a, wname ws = ("RAUC_IMAGE_" ++ a)%string).
    { unfold wimg in H. repeat (apply in_app_or in H as [H | H]).
      - cbn [In] in H. repeat (destruct H as [H | H]; [injection H as <- <-; eexists; reflexivity |]). contradiction.
      - destruct (im_adaptive y); [contradiction |]. destruct H as [H | []]. injection H as <- <-. eexists. reflexivity.
      - destruct (im_convert y); [contradiction |]. destruct H as [H | []]. injection H as <- <-. eexists. reflexivity.
      - destruct (im_converted y); [contradiction |]. destruct H as [H | []]. injection H as <- <-. eexists. reflexivity. }
    destruct P as (a & ->). split; [intro X; cbn in X; discriminate X |]. intros _. right. destruct a; reflexivity.
Qed.

(** meta data *)
Lemma c64_info_meta_ok : forall m hash g kvs k v,
  In (g, kvs) (mf_meta m) -> In (k, v) kvs -> all_chars key_char g = true -> all_chars key_char k = true ->
  (forall g' kvs' k' v', In (g', kvs') (mf_meta m) -> In (k', v') kvs' ->
     (smap env_conv g' ++ "_" ++ smap env_conv k')%string = (smap env_conv g ++ "_" ++ smap env_conv k)%string -> v' = v) ->
  exists out, info_shell m hash = Ok out /\ sets out ("RAUC_META_" ++ smap env_conv g ++ "_" ++ smap env_conv k) (Some v).
Proof.
  intros m hash g kvs k v Hg Hk Cg Ck U. destruct (info_text m hash) as (out & E & Ev). exists out. split; [exact E |]. eexists. split; [exact Ev |].
  set (n := ("RAUC_META_" ++ smap env_conv g ++ "_" ++ smap env_conv k)%string).
  assert (IN : In (n, v) (meta_vars (mf_meta m))) by (apply (c44_vars_complete_ok (mf_meta m) g kvs k v); assumption).
  assert (V : value_of n (map unw (wmeta m)) = Some v).
  { rewrite wmeta_eq.
    assert (A : forall w, In (n, w) (meta_vars (mf_meta m)) -> w = v).
    { intros w H. apply c44_vars_ok in H as (g' & kvs' & k' & eg & ek & H1 & H2 & H3 & -> & -> & _). apply (U g' kvs' k' w H1 H2).
      unfold n in H3. apply (f_equal (sdrop 10)) in H3. cbn in H3. symmetry. exact H3. }
    revert IN A. generalize (meta_vars (mf_meta m)). intros l. induction l as [| [n' w] l IH]; intros IN A; [contradiction |]. cbn [value_of].
    destruct (value_of n l) as [x |] eqn:X.
    - assert (Y : exists y, In (n, y) l /\ x = y).
      { clear - X. induction l as [| [a b] l IH]; [discriminate |]. cbn [value_of] in X. destruct (value_of n l) eqn:Z.
        - injection X as ->. destruct (IH eq_refl) as (y & H & ->). exists y. split; [right; exact H | reflexivity].
        - destruct (String.eqb_spec a n) as [-> | _]; [| discriminate]. injection X as ->. exists x. split; [left; reflexivity | reflexivity]. }
      destruct Y as (y & Y & ->). rewrite (A y) by (right; exact Y). reflexivity.
    - destruct IN as [IN | IN].
      + injection IN as -> ->. rewrite String.eqb_refl. reflexivity.
      + assert (Y : exists y, value_of n l = Some y).
        { clear - IN. induction l as [| [a b] l IH]; [contradiction |]. cbn [value_of]. destruct IN as [IN | IN].
          - injection IN as -> ->. rewrite String.eqb_refl. destruct (value_of n l); eexists; reflexivity.
          - destruct (IH IN) as (y & ->). exists y. reflexivity. }
        destruct Y as (y & Y). congruence. }
  unfold winfo. rewrite !map_app.
  assert (VA : forall a b, value_of n (a ++ b) = match value_of n b with Some x => Some x | None => value_of n a end).
  { induction a as [| [x y] a IH]; intro b; cbn [app value_of]; [destruct (value_of n b); reflexivity |]. rewrite IH. destruct (value_of n b); reflexivity. }
  rewrite !VA, V.
  assert (Z : forall l, (forall a b, In (a, b) l -> a <> n) -> value_of n l = None).
  { induction l as [| [a b] l IH]; intro H; [reflexivity |]. cbn [value_of]. rewrite IH by (intros; eapply H; right; eassumption).
    destruct (String.eqb_spec a n) as [-> | _]; [| reflexivity]. destruct (H n b (or_introl eq_refl) eq_refl). }
  rewrite Z; [reflexivity |]. intros a b H ->. apply in_map_iff in H as ([ws x] & W & H). unfold unw in W. cbn [fst snd] in W. injection W as W <-.
  apply numbered_in in H as (i & y & _ & H).
  assert (P : exists a, wname ws = ("RAUC_IMAGE_" ++ a)%string).
  { unfold wimg in H. repeat (apply in_app_or in H as [H | H]).
    - cbn [In] in H. repeat (destruct H as [H | H]; [injection H as <- <-; eexists; reflexivity |]). contradiction.
    - destruct (im_adaptive y); [contradiction |]. destruct H as [H | []]. injection H as <- <-. eexists. reflexivity.
    - destruct (im_convert y); [contradiction |]. destruct H as [H | []]. injection H as <- <-. eexists. reflexivity.
    - destruct (im_converted y); [contradiction |]. destruct H as [H | []]. injection H as <- <-. eexists. reflexivity. }
  destruct P as (a & P). rewrite P in W. unfold n in W. discriminate W.
Qed.
