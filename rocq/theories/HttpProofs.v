From Verif Require Import Base BaseLemmas KeyFile KeyFileLemmas EnvKey Nbd NbdConfig NbdConfigSpec NbdConfigProofs Context Http HttpSpec.
Open Scope list_scope.

(** ** information headers *)

Lemma dashed_underscores : forall s, dashed s (underscores s).
Proof.
  induction s as [|c s IH]; cbn [underscores]; [constructor|].
  destruct (Ascii.eqb_spec c "_") as [->|Hc]; [apply dashed_underscore|apply dashed_other]; assumption.
Qed.
Lemma dashed_fun : forall a b, dashed a b -> b = underscores a.
Proof.
  induction 1 as [|a b H IH|c a b Hc H IH]; cbn [underscores]; [reflexivity| |].
  - rewrite IH. reflexivity.
  - destruct (Ascii.eqb_spec c "_"); [contradiction|]. now rewrite IH.
Qed.

Lemma has_prefix_split : forall p s, has_prefix p s = true -> s = (p ++ sdrop (String.length p) s)%string.
Proof.
  induction p as [|c p IH]; intros s H; [now destruct s|]. destruct s as [|d s]; [discriminate H|].
  cbn in H. apply andb_true_iff in H as [H1 H2]. apply Ascii.eqb_eq in H1. subst d. cbn. f_equal. now apply IH.
Qed.
Lemma has_prefix_make : forall p s, has_prefix p (p ++ s)%string = true.
Proof. induction p as [|c p IH]; intros s; cbn; [now destruct s|]. rewrite Ascii.eqb_refl. apply IH. Qed.

Lemma line_if_in : forall e is label v h, In h (line_if e is label v) <-> e = is /\ exists x, v = Some x /\ h = (label ++ ": " ++ x)%string.
Proof.
  intros e is label v h. unfold line_if. destruct (String.eqb_spec e is) as [->|Hne].
  - destruct v as [x|]; cbn [In].
    + split; [intros [<-|[]]; eauto|]. intros (_ & y & Hy & ->). left. congruence.
    + split; [intros []|]. intros (_ & y & Hy & _). discriminate.
  - cbn [In]. split; [intros []|]. intros (-> & _). contradiction.
Qed.

Lemma get_uptime_of : forall f u, uptime_of f u -> or_null (get_uptime f) = u.
Proof.
  intros f u (Hs & idle & Hn & Hc & ->). unfold get_uptime.
  replace (u ++ " " ++ idle ++ String "010" "")%string with ((u ++ " " ++ idle) ++ String "010" "")%string
    by (now rewrite !app_assoc_s).
  rewrite chomp_newline by reflexivity.
  replace (u ++ " " ++ idle)%string with ((u ++ " ") ++ idle)%string by (now rewrite app_assoc_s).
  rewrite chomp_clean_tail by assumption. rewrite app_assoc_s.
  change (u ++ " " ++ idle)%string with (u ++ String " " idle)%string. now rewrite strsplit2_make by exact Hs.
Qed.

Lemma c70_info_ok : forall (sx : sysctx) (file : option string) (transaction : option string) (uptime h : string),
  uptime_of file uptime ->
  (In h (assemble sx file transaction) <-> standard_line sx uptime transaction h \/ handler_line sx h).
Proof.
  intros sx file tr up h Hup. unfold assemble. rewrite (get_uptime_of _ _ Hup), in_app_iff.
  assert (H2 : In h (flat_map (fun kv => match info_to_header kv with Some x => [x] | None => [] end) (sx_info sx)) <-> handler_line sx h).
  { rewrite in_flat_map. split.
    - intros ([k v] & Hin & Hh). unfold info_to_header in Hh. destruct (has_prefix "RAUC_HTTP_" k) eqn:Ep; [|destruct Hh].
      destruct Hh as [<-|[]]. exists (sdrop (String.length "RAUC_HTTP_") k), (underscores (sdrop (String.length "RAUC_HTTP_") k)), v.
      split; [|split; [apply dashed_underscores|reflexivity]]. now rewrite <- (has_prefix_split _ _ Ep).
    - intros (k & k' & v & Hin & Hd & ->). exists (("RAUC_HTTP_" ++ k)%string, v). split; [exact Hin|].
      unfold info_to_header. rewrite has_prefix_make. rewrite sdrop_app. rewrite (dashed_fun _ _ Hd). now left. }
  rewrite H2. clear H2.
  assert (H1 : In h (match sx_enabled sx with None => [] | Some hs => flat_map (fun h0 : string =>
         line_if h0 "boot-id" "RAUC-Boot-ID" (sx_boot_id sx) ++
         line_if h0 "machine-id" "RAUC-Machine-ID" (sx_machine_id sx) ++
         line_if h0 "system-version" "RAUC-System-Version" (sx_version sx) ++
         line_if h0 "serial" "RAUC-Serial" (sx_serial sx) ++
         line_if h0 "variant" "RAUC-Variant" (sx_variant sx) ++
         line_if h0 "transaction-id" "RAUC-Transaction-ID" tr ++
         line_if h0 "uptime" "RAUC-Uptime" (Some up)) hs end) <-> standard_line sx up tr h).
  { unfold standard_line. destruct (sx_enabled sx) as [hs|].
    2: { split; [intros []|]. intros (hs & n & l & v & A & _). discriminate. }
    rewrite in_flat_map. split.
    - intros (n & Hn & Hh). rewrite !in_app_iff, !line_if_in in Hh.
      exists hs, n. unfold known.
      destruct Hh as [H|[H|[H|[H|[H|[H|H]]]]]]; destruct H as (-> & x & Hx & ->).
      all: do 2 eexists; split; [reflexivity|]; split; [exact Hn|]; split; [|reflexivity]; rewrite ?Hx; cbn [In]; eauto 20.
    - intros (hs' & n & l & v & A & Hn & Hk & ->). injection A as <-. exists n. split; [exact Hn|].
      rewrite !in_app_iff, !line_if_in. unfold known in Hk. cbn [In] in Hk.
      repeat destruct Hk as [Hk|Hk]; try (apply pair_equal_spec in Hk as [Hk Hv]; apply pair_equal_spec in Hk as [<- <-]); [eauto 20..|destruct Hk]. }
  rewrite H1. reflexivity.
Qed.

Lemma c70_uptime_refuted : exists sx, In "RAUC-Uptime: (null)"%string (assemble sx None None).
Proof. exists (mkSysctx (Some ["uptime"%string]) None None None None None []). now left. Qed.

Lemma assemble_rauc : forall sx f tr h, In h (assemble sx f tr) -> has_prefix "RAUC-" h = true.
Proof.
  intros sx f tr h H. unfold assemble in H. apply in_app_iff in H as [H|H].
  - destruct (sx_enabled sx) as [hs|]; [|destruct H]. apply in_flat_map in H as (n & _ & H).
    rewrite !in_app_iff, !line_if_in in H.
    destruct H as [H|[H|[H|[H|[H|[H|H]]]]]]; destruct H as (_ & x & _ & ->); reflexivity.
  - apply in_flat_map in H as ([k v] & _ & H). unfold info_to_header in H.
    destruct (has_prefix "RAUC_HTTP_" k); [|destruct H]. destruct H as [<-|[]]. reflexivity.
Qed.

(** ** the answer *)

Lemma named_split : forall what h v, no_char ":" what = true ->
  ((exists name, strdown name = what /\ chomp h = (name ++ ": " ++ v)%string) <->
   (exists name, split_header (chomp h) = Some (name, v) /\ strdown name = what)).
Proof.
  intros what h v Hw. split; intros (name & A & B); exists name.
  - split; [|exact A]. rewrite B. apply split_header_make. apply strdown_no_colon. now rewrite A.
  - split; [exact B|]. now apply split_header_some.
Qed.

Lemma etag_split : forall h v, etag_header h v <-> exists name, split_header (chomp h) = Some (name, v) /\ strdown name = "etag"%string.
Proof. intros h v. apply named_split. reflexivity. Qed.
Lemma date_split : forall what h v, no_char ":" what = true ->
  (date_header what h v <-> exists name, split_header (chomp h) = Some (name, v) /\ strdown name = what).
Proof. intros what h v Hw. now apply named_split. Qed.

Definition upd_date (gd : string -> option N) (what h : string) (old new : N) : Prop :=
  (exists v t, date_header what h v /\ gd v = Some t /\ new = t) \/ (new = old /\ forall v t, date_header what h v -> gd v <> Some t).

Lemma header_full_cases : forall gd x h,
  match header_cb (hi_size x) h with
  | None => header_full gd x h = None
  | Some n => exists x', header_full gd x h = Some x' /\ hi_size x' = n /\
      ((exists v, etag_header h v /\ hi_etag x' = Some v) \/ (hi_etag x' = hi_etag x /\ forall v, ~ etag_header h v)) /\
      upd_date gd "date" h (hi_current x) (hi_current x') /\ upd_date gd "last-modified" h (hi_modified x) (hi_modified x')
  end.
Proof.
  intros gd x h. unfold header_cb, header_full.
  assert (NE : forall w n0 v0, split_header (chomp h) = Some (n0, v0) -> strdown n0 <> w -> no_char ":" w = true -> forall v, ~ date_header w h v).
  { intros w n0 v0 E Hn Hw v Hd. apply (date_split w h v Hw) in Hd as (m & A & B). rewrite E in A. apply Hn. congruence. }
  assert (NN : split_header (chomp h) = None -> forall w, no_char ":" w = true -> forall v, ~ date_header w h v).
  { intros E w Hw v Hd. apply (date_split w h v Hw) in Hd as (m & A & B). congruence. }
  destruct (split_header (chomp h)) as [[name v]|] eqn:E.
  2: { exists x. split; [reflexivity|]. split; [reflexivity|]. split; [right; split; [reflexivity|]; intros v Hv; apply (NN eq_refl "etag"%string eq_refl v Hv)|].
       split; right; (split; [reflexivity|]); intros v t Hv; exfalso; [apply (NN eq_refl "date"%string eq_refl v Hv)|apply (NN eq_refl "last-modified"%string eq_refl v Hv)]. }
  pose proof (fun w => NE w name v eq_refl) as NE'. clear NE NN.
  destruct (String.eqb_spec (strdown name) "content-range") as [En|N1].
  - destruct (content_range v) as [n|]; [|reflexivity].
    exists (mkHinfo n (hi_current x) (hi_modified x) (hi_etag x)). split; [reflexivity|]. split; [reflexivity|].
    split; [right; split; [reflexivity|]; intros w Hw; refine (NE' "etag"%string _ eq_refl w Hw); rewrite En; discriminate|].
    split; right; (split; [reflexivity|]); intros w t Hw; exfalso; [refine (NE' "date"%string _ eq_refl w Hw)|refine (NE' "last-modified"%string _ eq_refl w Hw)]; rewrite En; discriminate.
  - assert (TE : forall w, strdown name <> "etag"%string -> ~ etag_header h w) by (intros w Hne; exact (NE' "etag"%string Hne eq_refl w)).
    assert (TD : forall w, strdown name <> "date"%string -> ~ date_header "date" h w) by (intros w Hne; exact (NE' "date"%string Hne eq_refl w)).
    assert (TM : forall w, strdown name <> "last-modified"%string -> ~ date_header "last-modified" h w) by (intros w Hne; exact (NE' "last-modified"%string Hne eq_refl w)).
    clear NE'.
    assert (US : forall w u, strdown name = w -> no_char ":" w = true -> date_header w h u -> u = v).
    { intros w u Hw Hc Hu. apply (date_split w h u Hc) in Hu as (m & A & B). congruence. }
    assert (MK : forall w, strdown name = w -> no_char ":" w = true -> date_header w h v).
    { intros w Hw Hc. apply (date_split w h v Hc). eauto. }
    destruct (String.eqb_spec (strdown name) "date") as [En|N2].
    { destruct (gd v) as [t|] eqn:Eg; eexists; (split; [reflexivity|]); cbn [hi_size hi_current hi_modified hi_etag]; (split; [reflexivity|]).
      - split; [right; split; [reflexivity|]; intros w; apply TE; rewrite En; discriminate|]. split.
        + left. exists v, t. split; [now apply MK|]. auto.
        + right. split; [reflexivity|]. intros w u Hw. exfalso. revert Hw. apply TM. rewrite En. discriminate.
      - split; [right; split; [reflexivity|]; intros w; apply TE; rewrite En; discriminate|]. split.
        + right. split; [reflexivity|]. intros w u Hw. rewrite (US "date"%string w En eq_refl Hw), Eg. discriminate.
        + right. split; [reflexivity|]. intros w u Hw. exfalso. revert Hw. apply TM. rewrite En. discriminate. }
    destruct (String.eqb_spec (strdown name) "last-modified") as [En|N3].
    { destruct (gd v) as [t|] eqn:Eg; eexists; (split; [reflexivity|]); cbn [hi_size hi_current hi_modified hi_etag]; (split; [reflexivity|]).
      - split; [right; split; [reflexivity|]; intros w; apply TE; rewrite En; discriminate|]. split.
        + right. split; [reflexivity|]. intros w u Hw. exfalso. revert Hw. apply TD. rewrite En. discriminate.
        + left. exists v, t. split; [now apply MK|]. auto.
      - split; [right; split; [reflexivity|]; intros w; apply TE; rewrite En; discriminate|]. split.
        + right. split; [reflexivity|]. intros w u Hw. exfalso. revert Hw. apply TD. rewrite En. discriminate.
        + right. split; [reflexivity|]. intros w u Hw. rewrite (US "last-modified"%string w En eq_refl Hw), Eg. discriminate. }
    destruct (String.eqb_spec (strdown name) "etag") as [En|N4].
    + eexists; split; [reflexivity|]. cbn [hi_size hi_current hi_modified hi_etag]. split; [reflexivity|].
      split; [left; exists v; split; [now apply (MK "etag"%string)|reflexivity]|].
      split; right; (split; [reflexivity|]); intros w u Hw; exfalso; revert Hw; [now apply TD|now apply TM].
    + exists x. split; [reflexivity|]. split; [reflexivity|].
      split; [right; split; [reflexivity|]; intros w; now apply TE|].
      split; right; (split; [reflexivity|]); intros w u Hw; exfalso; revert Hw; [now apply TD|now apply TM].
Qed.

(** everything is what the headers so far say *)
Definition told (gd : string -> option N) (hs : list string) (x : hinfo) : Prop :=
  last_etag hs (hi_etag x) /\ last_date gd "date" hs (hi_current x) /\ last_date gd "last-modified" hs (hi_modified x).

Lemma told0 : forall gd, told gd [] hinfo0.
Proof. intros gd. split; [intros h v []|]. split; left; (split; [reflexivity|]); intros h v d []. Qed.

Lemma last_date_step : forall gd w hs h old new, last_date gd w hs old -> upd_date gd w h old new -> last_date gd w (hs ++ [h]) new.
Proof.
  intros gd w hs h old new HL [(v & t & Hd & Hg & ->)|[-> Hno]].
  - right. exists hs, h, v, []. repeat split; try assumption. intros h' v' d [].
  - destruct HL as [[-> Hn]|(b & h0 & v & a & -> & Hd & Hg & Ha)].
    + left. split; [reflexivity|]. intros h' v d Hin. apply in_app_iff in Hin as [Hin|[<-|[]]]; [now apply Hn|apply Hno].
    + right. exists b, h0, v, (a ++ [h]). split; [now rewrite <- app_assoc|]. split; [exact Hd|]. split; [exact Hg|].
      intros h' v' d Hin. apply in_app_iff in Hin as [Hin|[<-|[]]]; [now apply Ha|apply Hno].
Qed.

Lemma last_etag_step : forall hs h old new, last_etag hs old ->
  ((exists v, etag_header h v /\ new = Some v) \/ (new = old /\ forall v, ~ etag_header h v)) -> last_etag (hs ++ [h]) new.
Proof.
  intros hs h old new HL [(v & He & ->)|[-> Hno]].
  - cbn. exists hs, h, []. repeat split; try assumption. intros h' v' [].
  - destruct old as [v|]; cbn in *.
    + destruct HL as (b & h0 & a & -> & He & Ha). exists b, h0, (a ++ [h]). split; [now rewrite <- app_assoc|]. split; [exact He|].
      intros h' v' Hin. apply in_app_iff in Hin as [Hin|[<-|[]]]; [now apply Ha|apply Hno].
    + intros h' v Hin. apply in_app_iff in Hin as [Hin|[<-|[]]]; [now apply HL|apply Hno].
Qed.

Lemma header_cb_size_irrelevant : forall a b h, header_cb a h = None <-> header_cb b h = None.
Proof.
  intros a b h. unfold header_cb. destruct (split_header (chomp h)) as [[n v]|]; [|split; discriminate].
  destruct (String.eqb (strdown n) "content-range"); [reflexivity|split; discriminate].
Qed.

Lemma headers_full_spec : forall gd hs x acc x' ok, headers_full gd x hs = (x', ok) -> told gd acc x ->
  header_cbs (hi_size x) hs = (hi_size x', ok) /\ told gd (acc ++ heard hs) x'.
Proof.
  intros gd. induction hs as [|h hs IH]; intros x acc x' ok H HT; cbn [headers_full header_cbs heard] in *.
  - injection H as <- <-. rewrite app_nil_r. auto.
  - pose proof (header_full_cases gd x h) as HC. destruct (header_cb (hi_size x) h) as [n|] eqn:E.
    + destruct HC as (y & Hy & Hs & He & Hd & Hm). rewrite Hy in H.
      assert (E0 : exists m, header_cb 0 h = Some m).
      { destruct (header_cb 0 h) as [m|] eqn:E0; [eauto|]. apply (header_cb_size_irrelevant 0%N (hi_size x)) in E0. congruence. }
      destruct E0 as [m ->]. destruct HT as (T1 & T2 & T3).
      assert (HT' : told gd (acc ++ [h]) y).
      { split; [now apply (last_etag_step _ _ _ _ T1)|]. split; [now apply (last_date_step _ _ _ _ _ _ T2)|now apply (last_date_step _ _ _ _ _ _ T3)]. }
      rewrite <- Hs. destruct (IH y (acc ++ [h]) x' ok H HT') as [R1 R2]. split; [exact R1|]. now rewrite <- app_assoc in R2.
    + rewrite HC in H. injection H as <- <-. apply (header_cb_size_irrelevant _ 0%N) in E. rewrite E, app_nil_r. auto.
Qed.

Lemma configure_full_spec : forall gd url rs errors x acc made r n,
  configure_full gd url errors x rs made = Some (r, n) -> told gd acc x ->
  exists k a x', n = made + S k /\ nth_error rs k = Some a /\
    configure_loop errors (hi_size x) (map at_res rs) = Some (fr_reply r) /\
    told gd (acc ++ flat_map (fun b => heard (g_headers (at_res b))) (firstn (S k) rs)) x' /\
    fr_current r = nonzero (hi_current x') /\ fr_modified r = nonzero (hi_modified x') /\ fr_etag r = hi_etag x' /\
    fr_url r = (if cr_error (fr_reply r) then url else at_url a) /\
    (cr_code (fr_reply r) = None \/ cr_code (fr_reply r) = Some (g_http (at_res a))) /\
    (cr_error (fr_reply r) = false -> usable (at_res a)).
Proof.
  intros gd url. induction rs as [|a rs IH]; intros errors x acc made r n H HT; cbn [configure_full] in H; [discriminate|].
  destruct (headers_full gd x (g_headers (at_res a))) as [x1 hok] eqn:Eh.
  destruct (headers_full_spec _ _ _ _ _ _ Eh HT) as [Hs HT1].
  cbn [map configure_loop]. rewrite Hs.
  destruct (if hok then write_chunks 4 "" (g_chunks (at_res a)) else (""%string, true)) as [buf bok] eqn:Ew.
  assert (FIN : forall err, (r, n) = (finish_full url a buf err x1, S made) ->
    (cr_error (fr_reply r) = false -> usable (at_res a)) ->
    exists k a0 x', n = made + S k /\ nth_error (a :: rs) k = Some a0 /\
      Some (finish_configure (g_http (at_res a)) buf err (hi_size x1)) = Some (fr_reply r) /\
      told gd (acc ++ flat_map (fun b => heard (g_headers (at_res b))) (firstn (S k) (a :: rs))) x' /\
      fr_current r = nonzero (hi_current x') /\ fr_modified r = nonzero (hi_modified x') /\ fr_etag r = hi_etag x' /\
      fr_url r = (if cr_error (fr_reply r) then url else at_url a0) /\
      (cr_code (fr_reply r) = None \/ cr_code (fr_reply r) = Some (g_http (at_res a0))) /\ (cr_error (fr_reply r) = false -> usable (at_res a0))).
  { intros err HR HU. apply pair_equal_spec in HR as [Hr Hn]. exists 0, a, x1. split; [lia|]. split; [reflexivity|].
    rewrite Hr. cbn [fr_reply fr_current fr_modified fr_etag fr_url finish_full]. split; [reflexivity|].
    split; [cbn [firstn flat_map]; now rewrite app_nil_r|]. do 3 (split; [reflexivity|]). split; [reflexivity|].
    split; [|rewrite Hr in HU; exact HU].
    unfold finish_configure. destruct (negb (g_http (at_res a) =? 206)%N); [now right|].
    destruct (negb (Nat.eqb (String.length buf) 4)); [now left|]. destruct err; now left. }
  destruct (g_ok (at_res a) && hok && bok) eqn:Eok.
  - assert (HR : (r, n) = (finish_full url a buf false x1, S made)) by congruence. apply (FIN false HR).
    intros HE. apply pair_equal_spec in HR as [Hr _]. rewrite Hr in HE. cbn [fr_reply finish_full] in HE.
    apply andb_true_iff in Eok as [Eok Ebok]. apply andb_true_iff in Eok as [Eok Ehok]. rewrite Ehok, Ebok in Ew.
    unfold finish_configure in HE. destruct (N.eqb_spec (g_http (at_res a)) 206) as [E2|]; [|discriminate HE].
    cbn [negb] in HE. destruct (Nat.eqb_spec (String.length buf) 4) as [E4|]; [|discriminate HE].
    split; [exact Eok|]. split; [exact E2|]. destruct (wc4 _ _ _ Ew) as [W _].
    unfold g_body. rewrite <- (W eq_refl). exact E4.
  - assert (NU : cr_error (fr_reply (finish_full url a buf true x1)) = false -> usable (at_res a)).
    { cbn [fr_reply finish_full]. unfold finish_configure. destruct (negb (g_http (at_res a) =? 206)%N); [discriminate|].
      destruct (negb (Nat.eqb (String.length buf) 4)); discriminate. }
    destruct (g_http (at_res a) =? 404)%N.
    { assert (HR : (r, n) = (finish_full url a buf true x1, S made)) by congruence. apply (FIN true HR).
      apply pair_equal_spec in HR as [-> _]. exact NU. }
    destruct (Nat.leb 5 errors).
    { assert (HR : (r, n) = (finish_full url a buf true x1, S made)) by congruence. apply (FIN true HR).
      apply pair_equal_spec in HR as [-> _]. exact NU. }
    destruct (IH (S errors) x1 _ (S made) r n H HT1) as (k & b & x' & Hn & Hk & Hl & Ht & Hrest).
    exists (S k), b, x'. split; [lia|]. split; [exact Hk|]. split; [exact Hl|]. split; [|exact Hrest].
    change (firstn (S (S k)) (a :: rs)) with (a :: firstn (S k) rs). cbn [flat_map]. now rewrite app_assoc.
Qed.

Lemma or_zero_nonzero : forall n, or_zero (nonzero n) = n.
Proof. intros n. unfold nonzero. destruct (N.eqb_spec n 0); cbn; congruence. Qed.

Lemma read_config_srv : forall s, read_config (config_dict s) =
  Ok (mkNctx (ns_url s) (ns_cert s) (ns_key s) (ns_ca s) (ns_no_verify s)
        (match ns_headers s with Some l => l | None => [] end)
        (match ns_headers s with Some l => l | None => [] end ++ match ns_info s with Some l => l | None => [] end)).
Proof. intros [u c k a nv h i]. destruct c, k, a, nv, h, i; reflexivity. Qed.

Lemma configure_headers : forall s c, read_config (config_dict s) = Ok c ->
  q_headers (configure_request c) = match ns_headers s with Some l => l | None => [] end ++ match ns_info s with Some l => l | None => [] end.
Proof.
  intros s c H. rewrite read_config_srv in H. apply Ok_inj in H. subst c. unfold configure_request, prepare. cbn [q_headers nc_initial nc_headers].
  destruct (ns_headers s) as [[|a l]|]; cbn [app]; [|reflexivity|]; destruct (ns_info s) as [[|b m]|]; reflexivity.
Qed.

(** *** what an accepted answer says *)
Lemma c70_answer_ok : forall getdate s rs qs st c,
  stream_start getdate s rs = Some (qs, StrOk st, c) ->
  let hs := flat_map (fun a => heard (g_headers (at_res a))) (firstn (List.length qs) rs) in
  last_etag hs (sm_etag st) /\ last_date getdate "date" hs (sm_current st) /\ last_date getdate "last-modified" hs (sm_modified st) /\
  nbd_configure (map at_res rs) = Some (CfgOk (sm_size st)) /\
  exists a, nth_error rs (List.length qs - 1) = Some a /\ usable (at_res a) /\ sm_url st = at_url a.
Proof.
  intros gd s rs qs st c H. unfold stream_start in H. rewrite read_config_srv in H.
  destruct (configure_full gd _ 0 hinfo0 rs 0) as [[r n]|] eqn:E; [|discriminate].
  apply Some_inj in H. apply pair_equal_spec in H as [H _]. apply pair_equal_spec in H as [<- Hc].
  rewrite repeat_length.
  destruct (configure_full_spec _ _ _ _ _ _ _ _ _ E (told0 gd)) as (k & a & x & -> & Hk & Hl & (T1 & T2 & T3) & F1 & F2 & F3 & F4 & F5 & F6).
  unfold client_result in Hc. destruct (cr_error (fr_reply r)) eqn:Ee; [discriminate|].
  destruct (cr_size (fr_reply r)) as [sz|] eqn:Es; [|discriminate]. injection Hc as <-. cbn [sm_etag sm_current sm_modified sm_size sm_url].
  cbn [app Nat.add] in *. rewrite F1, F2, F3, !or_zero_nonzero.
  split; [exact T1|]. split; [exact T2|]. split; [exact T3|]. split.
  - unfold nbd_configure. change (hi_size hinfo0) with 0%N in Hl. rewrite Hl, Ee, Es. reflexivity.
  - exists a. split; [replace (S k - 1) with k by lia; exact Hk|]. split; [now apply F6|exact F4].
Qed.

(** the streaming of C49 and this one agree *)
Lemma c70_same_ok : forall getdate s rs,
  match stream_start getdate s rs with
  | Some (_, StrOk st, _) => nbd_configure (map at_res rs) = Some (CfgOk (sm_size st))
  | Some (_, StrErr e, _) => nbd_configure (map at_res rs) = Some (CfgErr e)
  | None => nbd_configure (map at_res rs) = None
  end.
Proof.
  intros gd s rs. unfold stream_start. rewrite read_config_srv.
  destruct (configure_full gd _ 0 hinfo0 rs 0) as [[r n]|] eqn:E.
  - destruct (configure_full_spec _ _ _ _ _ _ _ _ _ E (told0 gd)) as (k & a & x & _ & _ & Hl & _).
    change (hi_size hinfo0) with 0%N in Hl. unfold nbd_configure. rewrite Hl. unfold client_result.
    destruct (cr_error (fr_reply r)); [reflexivity|]. destruct (cr_size (fr_reply r)); reflexivity.
  - unfold nbd_configure.
    assert (G : forall l er x acc md u, told gd acc x -> configure_full gd u er x l md = None -> configure_loop er (hi_size x) (map at_res l) = None).
    { induction l as [|a l IH]; intros er x acc md u HT H; [reflexivity|]. cbn [configure_full map configure_loop] in *.
      destruct (headers_full gd x (g_headers (at_res a))) as [x1 hok] eqn:Eh.
      destruct (headers_full_spec _ _ _ _ _ _ Eh HT) as [Hs HT1]. rewrite Hs.
      destruct (if hok then write_chunks 4 "" (g_chunks (at_res a)) else (""%string, true)) as [buf bok].
      destruct (g_ok (at_res a) && hok && bok); [discriminate|]. destruct (g_http (at_res a) =? 404)%N; [discriminate|].
      destruct (Nat.leb 5 er); [discriminate|]. exact (IH _ _ _ _ _ HT1 H). }
    change 0%N with (hi_size hinfo0). now rewrite (G rs 0 hinfo0 [] 0 _ (told0 gd) E).
Qed.

Lemma start_error : forall gd s rs qs e c, stream_start gd s rs = Some (qs, StrErr e, c) ->
  qs <> [] /\
  (e = NoContent -> exists a, In a rs /\ g_http (at_res a) = 204%N) /\ (e = NotModified -> exists a, In a rs /\ g_http (at_res a) = 304%N).
Proof.
  intros gd s rs qs e c H. unfold stream_start in H. rewrite read_config_srv in H.
  destruct (configure_full gd _ 0 hinfo0 rs 0) as [[r n]|] eqn:E; [|discriminate].
  apply Some_inj in H. apply pair_equal_spec in H as [H _]. apply pair_equal_spec in H as [Hq Hc].
  destruct (configure_full_spec _ _ _ _ _ _ _ _ _ E (told0 gd)) as (k & a & x & Hn & Hk & _ & _ & _ & _ & _ & _ & F5 & _).
  split; [rewrite <- Hq, Hn; discriminate|].
  unfold client_result in Hc. destruct (cr_error (fr_reply r)).
  2: { destruct (cr_size (fr_reply r)); [discriminate|]. injection Hc as <-. split; discriminate. }
  assert (P : forall m, m <> 0%N -> or_zero (cr_code (fr_reply r)) = m -> exists b, In b rs /\ g_http (at_res b) = m).
  { intros m Hm Ho. destruct F5 as [F5|F5]; rewrite F5 in Ho; cbn in Ho; [congruence|]. exists a. split; [now apply (nth_error_In rs k)|exact Ho]. }
  injection Hc as Hc.
  destruct (N.eqb_spec (or_zero (cr_code (fr_reply r))) 204) as [E1|_]; [rewrite <- Hc; split; [intros _; now apply P|discriminate]|].
  destruct (N.eqb_spec (or_zero (cr_code (fr_reply r))) 304) as [E1|_]; [rewrite <- Hc; split; [discriminate|intros _; now apply P]|].
  destruct (or_zero (cr_code (fr_reply r)) =? 401)%N; [rewrite <- Hc; split; discriminate|].
  destruct (or_zero (cr_code (fr_reply r)) =? 404)%N; rewrite <- Hc; split; discriminate.
Qed.

(** *** the requests *)
Lemma c70_requests_ok : forall getdate url args conf rs reads q,
  In q (stream_requests getdate (make_srv url (Some args) conf) rs reads) ->
  q_cert q = (match ac_cert args with Some c => Some c | None => tc_cert conf end) /\
  option_map snd (q_key q) = (match ac_key args with Some c => Some c | None => tc_key conf end) /\
  q_ca q = (match ac_ca args with Some c => Some c | None => tc_ca conf end) /\
  (q_verify_peer q = false <-> ac_no_verify args = true) /\
  (forall t k, q_key q = Some (t, k) -> (t = KeyProvider <-> exists uri, k = ("pkcs11:" ++ uri)%string)) /\
  let user := match ac_headers args with Some l => l | None => [] end in
  let info := match ac_info args with Some l => l | None => [] end in
  (q_url q = url /\ q_range q = "0-3"%string /\ q_headers q = user ++ info \/
   (exists from len a, In (from, len) reads /\ In a rs /\ usable (at_res a) /\ q_url q = at_url a /\ q_headers q = user /\
      (from + len <= 2 ^ 64 -> 1 <= len -> q_range q = (print_num 10 from ++ "-" ++ print_num 10 (from + len - 1))%string)%N)).
Proof.
  intros gd url args conf rs reads q H. unfold stream_requests in H.
  destruct (stream_start gd (make_srv url (Some args) conf) rs) as [[[qs out] c]|] eqn:E; [|destruct H].
  assert (K : forall k0 t k, match k0 with Some k1 => Some (if has_prefix "pkcs11:" k1 then KeyProvider else KeyFileKey, k1) | None => None end = Some (t, k) ->
     (t = KeyProvider <-> exists uri, k = ("pkcs11:" ++ uri)%string)).
  { intros [k1|] t k H0; [|discriminate]. apply Some_inj in H0. apply pair_equal_spec in H0 as [<- <-]. destruct (has_prefix "pkcs11:" k1) eqn:Ep.
    - split; [|reflexivity]. intros _. eexists. exact (has_prefix_split _ _ Ep).
    - split; [discriminate|]. intros (uri & ->). rewrite has_prefix_make in Ep. discriminate. }
  assert (KS : forall k0 : option string, option_map snd (match k0 with Some k1 => Some (if has_prefix "pkcs11:" k1 then KeyProvider else KeyFileKey, k1) | None => None end) = k0)
    by (intros [k1|]; reflexivity).
  assert (FB : forall (A : Type) (o d : option A), fallback o d = match o with Some x => Some x | None => d end) by (intros A [x|] d; reflexivity).
  pose proof E as E0. unfold stream_start in E. rewrite read_config_srv in E.
  destruct (configure_full gd _ 0 hinfo0 rs 0) as [[r n]|] eqn:Ef; [|discriminate].
  apply Some_inj in E. apply pair_equal_spec in E as [E Ec]. apply pair_equal_spec in E as [Eq Eo].
  assert (CQ : In q qs -> q_cert q = (match ac_cert args with Some c => Some c | None => tc_cert conf end) /\
     option_map snd (q_key q) = (match ac_key args with Some c => Some c | None => tc_key conf end) /\
     q_ca q = (match ac_ca args with Some c => Some c | None => tc_ca conf end) /\
     (q_verify_peer q = false <-> ac_no_verify args = true) /\
     (forall t k, q_key q = Some (t, k) -> (t = KeyProvider <-> exists uri, k = ("pkcs11:" ++ uri)%string)) /\
     q_url q = url /\ q_range q = "0-3"%string /\
     q_headers q = match ac_headers args with Some l => l | None => [] end ++ match ac_info args with Some l => l | None => [] end).
  { intros Hin. rewrite <- Eq in Hin. apply repeat_spec in Hin. subst q.
    cbn [q_cert q_key q_ca q_verify_peer q_url q_range configure_request prepare make_srv ns_url ns_cert ns_key ns_ca ns_no_verify ns_headers ns_info nc_url nc_cert nc_key nc_ca nc_no_verify].
    rewrite KS, !FB. do 3 (split; [reflexivity|]). split; [destruct (ac_no_verify args); cbn [negb]; split; congruence|]. split; [apply K|]. split; [reflexivity|]. split; [reflexivity|].
    exact (configure_headers (make_srv url (Some args) conf) _ (read_config_srv _)). }
  assert (G : In q qs \/ exists st from len, out = StrOk st /\ In (from, len) reads /\ q = read_request c from len).
  { destruct out as [st|e]; [|now left]. apply in_app_iff in H as [H|H]; [now left|]. right.
    apply in_map_iff in H as ([from len] & <- & Hin). exists st, from, len. auto. }
  destruct G as [G|(st & from & len & -> & Hin & ->)].
  - destruct (CQ G) as (A1 & A2 & A3 & A4 & A5 & A6). do 5 (split; [assumption|]). left. exact A6.
  - subst c. cbn [q_cert q_key q_ca q_verify_peer q_headers q_url q_range read_request prepare make_srv ns_url ns_cert ns_key ns_ca ns_no_verify ns_headers ns_info nc_url nc_cert nc_key nc_ca nc_no_verify nc_headers].
    rewrite KS, !FB. do 3 (split; [reflexivity|]). split; [destruct (ac_no_verify args); cbn [negb]; split; congruence|]. split; [apply K|]. right.
    destruct (c70_answer_ok _ _ _ _ _ _ E0) as (_ & _ & _ & _ & a & Ha & Hu & Hurl).
    exists from, len, a. split; [exact Hin|]. split; [exact (nth_error_In _ _ Ha)|]. split; [exact Hu|]. split.
    + rewrite <- Hurl. unfold client_result in Eo. destruct (cr_error (fr_reply r)); [discriminate|]. destruct (cr_size (fr_reply r)); [|discriminate].
      injection Eo as <-. reflexivity.
    + split; [reflexivity|]. intros HL1 HL2.
      replace ((from + len + 2 ^ 64 - 1) mod 2 ^ 64)%N with (from + len - 1)%N; [reflexivity|].
      replace (from + len + 2 ^ 64 - 1)%N with ((from + len - 1) + 1 * 2 ^ 64)%N by lia.
      rewrite N.mod_add by discriminate. symmetry. apply N.mod_small. lia.
Qed.

(** ** polling *)

Lemma heard_in : forall hs h, In h (heard hs) -> In h hs.
Proof.
  induction hs as [|a hs IH]; intros h H; cbn [heard] in H; [destruct H|]. destruct (header_cb 0 a); [|destruct H].
  destruct H as [<-|H]; [now left|right; now apply IH].
Qed.

Lemma firstn_in : forall (A : Type) n (l : list A) x, In x (firstn n l) -> In x l.
Proof. intros A n l x H. rewrite <- (firstn_skipn n l). apply in_app_iff. now left. Qed.

Lemma poll_requests : forall gd conf url info p rs qs out c, poll_start gd conf url info p rs = Some (qs, out, c) ->
  qs <> [] /\ forall q, In q qs -> q_headers q = info ++ match ps_etag p with Some e => [("If-None-Match: " ++ e)%string] | None => [] end.
Proof.
  intros gd conf url info p rs qs out c H. unfold poll_start, stream_start in H.
  destruct (read_config (config_dict _)) as [c0| |] eqn:Er; try discriminate.
  destruct (configure_full gd _ 0 hinfo0 rs 0) as [[r n]|] eqn:E; [|discriminate].
  apply Some_inj in H. apply pair_equal_spec in H as [H _]. apply pair_equal_spec in H as [<- _].
  destruct (configure_full_spec _ _ _ _ _ _ _ _ _ E (told0 gd)) as (k & a & x & -> & _).
  split; [discriminate|]. intros q Hq. apply repeat_spec in Hq. subst q. rewrite (configure_headers _ _ Er). reflexivity.
Qed.

(** the stored ETag belongs to the stored manifest *)
Definition matching (evs : list pollev) (p : pollst) : Prop :=
  forall v, ps_etag p = Some v -> exists e b, In e evs /\ pe_current e = Some b /\ sb_etag b = Some v /\ ps_manifest p = Some (sb_manifest b).

Lemma app_inj_l : forall p a b, (p ++ a)%string = (p ++ b)%string -> a = b.
Proof. induction p as [|c p IH]; intros a b H; [exact H|]. cbn in H. injection H as H. now apply IH. Qed.

Lemma poll_step_ok : forall gd conf url evs p e p' ok, matching evs p -> distinct (evs ++ [e]) ->
  fetch_ev gd conf url p e = Some (p', ok) -> (forall sent, sent_ev gd conf url p e sent -> honest sent e) ->
  matching (evs ++ [e]) p' /\ (ok = true -> ps_manifest p' = option_map sb_manifest (pe_current e)).
Proof.
  intros gd conf url evs p e p' ok HM HD HF HH. unfold fetch_ev, poll_fetch in HF.
  destruct (poll_start gd conf url (assemble (pe_sys e) (pe_uptime e) None) p (pe_answers e)) as [[[qs out] c]|] eqn:E; [|discriminate].
  destruct (poll_requests _ _ _ _ _ _ _ _ _ E) as [Hne Hqs].
  destruct qs as [|q qs]; [congruence|]. clear Hne.
  assert (HS : honest (assemble (pe_sys e) (pe_uptime e) None ++ match ps_etag p with Some v => [("If-None-Match: " ++ v)%string] | None => [] end) e).
  { apply HH. exists (q :: qs), out, c, q. split; [exact E|]. split; [now left|]. apply Hqs. now left. }
  destruct HS as (S1 & S2 & S3 & S4).
  assert (KEEP : matching (evs ++ [e]) p).
  { intros v Hv. destruct (HM v Hv) as (e0 & b & A & B). exists e0, b. split; [apply in_app_iff; now left|exact B]. }
  destruct out as [st|er].
  - destruct (pe_opened e) as [| |m] eqn:Eo; try (apply Some_inj in HF; apply pair_equal_spec in HF as [<- <-]; split; [exact KEEP|discriminate]).
    apply Some_inj in HF. apply pair_equal_spec in HF as [<- <-]. destruct (S4 m eq_refl) as (b & Hb & Hm).
    split; [|intros _; cbn [ps_manifest]; rewrite Hb, <- Hm; reflexivity].
    intros v Hv. cbn [ps_etag ps_manifest] in *.
    destruct (c70_answer_ok _ _ _ _ _ _ E) as (T & _). rewrite Hv in T. cbn [last_etag] in T. destruct T as (bf & h & af & Hl & He & _).
    assert (Hin : In h (flat_map (fun a => heard (g_headers (at_res a))) (firstn (List.length (q :: qs)) (pe_answers e)))) by (rewrite Hl; apply in_elt).
    apply in_flat_map in Hin as (a & Ha & Hh). apply firstn_in in Ha. apply heard_in in Hh.
    destruct (S1 a h v Ha Hh He) as (b' & Hb' & Hv'). assert (b' = b) by congruence. subst b'.
    exists e, b. split; [apply in_app_iff; right; now left|]. split; [exact Hb|]. split; [exact Hv'|]. now rewrite Hm.
  - destruct (start_error _ _ _ _ _ _ E) as (_ & N1 & N2). destruct er.
    + apply Some_inj in HF. apply pair_equal_spec in HF as [<- <-]. split; [intros v Hv; discriminate Hv|].
      intros _. destruct (N1 eq_refl) as (a & Ha & Hc). now rewrite (S3 a Ha Hc).
    + apply Some_inj in HF. apply pair_equal_spec in HF as [<- <-]. split; [exact KEEP|]. intros _.
      destruct (N2 eq_refl) as (a & Ha & Hc). destruct (S2 a Ha Hc) as (b & v & Hb & Hv & Hs).
      assert (Hp : ps_etag p = Some v).
      { apply in_app_iff in Hs as [Hs|Hs]; [apply assemble_rauc in Hs; discriminate Hs|].
        destruct (ps_etag p) as [w|]; [|destruct Hs]. destruct Hs as [Hs|[]]. f_equal. now apply (app_inj_l "If-None-Match: "). }
      destruct (HM v Hp) as (e0 & b0 & A1 & A2 & A3 & A4). rewrite A4, Hb. cbn [option_map]. f_equal.
      refine (HD e0 e b0 b v _ _ A2 Hb A3 Hv); apply in_app_iff; [now left|right; now left].
    + apply Some_inj in HF. apply pair_equal_spec in HF as [<- <-]. split; [exact KEEP|discriminate].
    + apply Some_inj in HF. apply pair_equal_spec in HF as [<- <-]. split; [exact KEEP|discriminate].
    + apply Some_inj in HF. apply pair_equal_spec in HF as [<- <-]. split; [exact KEEP|discriminate].
Qed.

Lemma polled_matching : forall gd conf url evs p, polled gd conf url evs p -> distinct evs -> matching evs p.
Proof.
  intros gd conf url evs p H. induction H as [|evs p e p' ok H IH HF HH]; intros HD; [intros v Hv; discriminate Hv|].
  assert (HD' : distinct evs) by (intros e1 e2 b1 b2 v A1 A2; apply HD; apply in_app_iff; now left).
  exact (proj1 (poll_step_ok _ _ _ _ _ _ _ _ (IH HD') HD HF HH)).
Qed.

Lemma c70_fresh_ok : forall getdate conf url evs p e p',
  polled getdate conf url evs p -> distinct (evs ++ [e]) ->
  fetch_ev getdate conf url p e = Some (p', true) -> (forall sent, sent_ev getdate conf url p e sent -> honest sent e) ->
  ps_manifest p' = option_map sb_manifest (pe_current e).
Proof.
  intros gd conf url evs p e p' H HD HF HH.
  assert (HD' : distinct evs) by (intros e1 e2 b1 b2 v A1 A2; apply HD; apply in_app_iff; now left).
  exact (proj2 (poll_step_ok _ _ _ _ _ _ _ _ (polled_matching _ _ _ _ _ H HD') HD HF HH) eq_refl).
Qed.

Lemma c70_failed_keeps_ok : forall getdate conf url p e p', fetch_ev getdate conf url p e = Some (p', false) -> p' = p.
Proof.
  intros gd conf url p e p' H. unfold fetch_ev, poll_fetch in H.
  destruct (poll_start gd conf url (assemble (pe_sys e) (pe_uptime e) None) p (pe_answers e)) as [[[qs out] c]|]; [|discriminate].
  destruct out as [st|er]; [destruct (pe_opened e)|destruct er]; apply Some_inj in H; apply pair_equal_spec in H as [A B]; congruence.
Qed.

(** what a poll asks: the enabled headers, and If-None-Match exactly if the state has an ETag *)
Lemma c70_conditional_ok : forall getdate conf url p e sent h, sent_ev getdate conf url p e sent ->
  (In h sent <-> In h (assemble (pe_sys e) (pe_uptime e) None) \/ exists v, ps_etag p = Some v /\ h = ("If-None-Match: " ++ v)%string).
Proof.
  intros gd conf url p e sent h (qs & out & c & q & E & Hq & <-).
  destruct (poll_requests _ _ _ _ _ _ _ _ _ E) as [_ Hqs]. rewrite (Hqs q Hq), in_app_iff.
  destruct (ps_etag p) as [v|]; cbn [In].
  - split; [intros [H|[<-|[]]]; eauto|]. intros [H|(w & Hw & ->)]; [now left|]. right. left. congruence.
  - split; [intros [H|[]]; now left|]. intros [H|(w & Hw & _)]; [now left|discriminate].
Qed.

(** ** one line per header *)

Lemma assoc_set_in : forall (A : Type) k (v : A) l x, In x (assoc_set k v l) -> x = (k, v) \/ In x l.
Proof.
  intros A k v. induction l as [|[k0 v0] l IH]; intros x H; cbn [assoc_set] in H; [destruct H as [<-|[]]; now left|].
  destruct (String.eqb_spec k0 k) as [->|_].
  - cbn [In] in *. destruct H as [<-|H]; [now left|right; now right].
  - cbn [In] in *. destruct H as [<-|H]; [right; now left|]. destruct (IH x H) as [->|H']; [now left|right; now right].
Qed.

Lemma read_vars_lines : forall lines vars, Forall (fun w => no_char "010" w = true) lines ->
  (forall k v, In (k, v) vars -> no_char "010" k = true /\ no_char "010" v = true) ->
  forall k v, In (k, v) (read_vars lines vars) -> no_char "010" k = true /\ no_char "010" v = true.
Proof.
  induction lines as [|l lines IH]; intros vars HF HV k v H; [now apply HV|]. cbn [read_vars] in H.
  apply Forall_cons_iff in HF as [Hl HF]. revert H. apply IH; [exact HF|]. clear IH k v.
  destruct (has_prefix "RAUC_" l); [|exact HV]. destruct (g_strsplit_max "=" 2 l) as [|k [|v [|w r]]] eqn:E; try exact HV.
  apply strsplit2_some in E as [E _]. rewrite E in Hl. rewrite no_char_app in Hl. apply andb_true_iff in Hl as [Hk Hv].
  unfold no_char in Hv. cbn [all_chars] in Hv. apply andb_true_iff in Hv as [_ Hv].
  intros k' v' H. apply assoc_set_in in H as [H|H]; [|now apply HV]. injection H as -> ->. split; assumption.
Qed.

Lemma underscores_no_newline : forall s, no_char "010" s = true -> no_char "010" (underscores s) = true.
Proof.
  unfold no_char. induction s as [|c s IH]; intros H; [reflexivity|]. cbn [all_chars underscores] in *. apply andb_true_iff in H as [H1 H2].
  apply andb_true_iff. split; [|now apply IH]. destruct (Ascii.eqb c "_"); [reflexivity|exact H1].
Qed.

Lemma c70_handler_lines_ok : forall h vars sx, system_info h = Ok vars -> sx_info sx = vars ->
  forall line, handler_line sx line -> no_char "010" line = true.
Proof.
  intros h vars sx HS HV line (k & k' & v & Hin & Hd & ->). rewrite HV in Hin.
  assert (G : no_char "010" ("RAUC_HTTP_" ++ k)%string = true /\ no_char "010" v = true).
  { destruct h as [| |text ok]; cbn [system_info] in HS; [apply Ok_inj in HS; subst vars; destruct Hin|discriminate|].
    destruct ok; [|discriminate]. apply Ok_inj in HS. subst vars. revert Hin. apply read_vars_lines; [apply split_on_no_char|intros ? ? []]. }
  destruct G as [G1 G2]. rewrite no_char_app in G1. apply andb_true_iff in G1 as [_ G1].
  apply dashed_fun in Hd. subst k'. rewrite !no_char_app, G2, underscores_no_newline by exact G1. reflexivity.
Qed.

Lemma c70_standard_lines_ok : forall sx uptime transaction line, standard_line sx uptime transaction line ->
  (forall name label v, In (name, label, Some v) (known sx uptime transaction) -> no_char "010" v = true) -> no_char "010" line = true.
Proof.
  intros sx up tr line (hs & name & label & v & _ & _ & Hk & ->) HN. rewrite !no_char_app, (HN _ _ _ Hk).
  assert (L : no_char "010" label = true).
  { unfold known in Hk. cbn [In] in Hk. do 7 (destruct Hk as [Hk|Hk]; [apply pair_equal_spec in Hk as [Hk _]; apply pair_equal_spec in Hk as [_ <-]; reflexivity|]). destruct Hk. }
  rewrite L. reflexivity.
Qed.

(** the ETag of a redirection is kept for a bundle without one *)
Definition redirected (m : string) : list attempt :=
  [mkAttempt (mkCfgres true 206 ["HTTP/1.1 302 Found"; "ETag: r"; "HTTP/1.1 206 Partial Content"; "Content-Range: bytes 0-3/100"]%string ["hsqs"%string]) "http://b"].
Definition unchanged : list attempt := [mkAttempt (mkCfgres true 304 ["HTTP/1.1 304 Not Modified"; "ETag: r"]%string []) "http://a"].

Lemma c70_redirect_refuted : exists url final e1 e2 p1 p2,
  In "HTTP/1.1 302 Found"%string (flat_map (fun a => g_headers (at_res a)) (pe_answers e1)) /\
  (exists first, flat_map (fun a => g_headers (at_res a)) (pe_answers e1) = first ++ final) /\ (forall h v, In h final -> ~ etag_header h v) /\
  pe_current e1 = Some (mkSbundle None "one") /\ pe_opened e1 = OpenManifest "one" /\ pe_current e2 = Some (mkSbundle None "two") /\
  fetch_ev (fun _ => None) (mkTlsconf None None None) url pollst0 e1 = Some (p1, true) /\
  fetch_ev (fun _ => None) (mkTlsconf None None None) url p1 e2 = Some (p2, true) /\
  ps_manifest p2 = Some "one"%string.
Proof.
  set (sx := mkSysctx None None None None None None []).
  exists "http://a"%string, ["HTTP/1.1 206 Partial Content"; "Content-Range: bytes 0-3/100"]%string,
    (mkPollev sx None (redirected "one") (OpenManifest "one") (Some (mkSbundle None "one"))),
    (mkPollev sx None unchanged OpenFailed (Some (mkSbundle None "two"))).
  do 2 eexists. split; [now left|]. split; [exists ["HTTP/1.1 302 Found"; "ETag: r"]%string; reflexivity|].
  split.
  { intros h v [<-|[<-|[]]] He; apply etag_split in He as (n & A & B); vm_compute in A.
    - discriminate A.
    - injection A as <- _. discriminate B. }
  do 3 (split; [reflexivity|]). split; [vm_compute; reflexivity|]. split; [vm_compute; reflexivity|reflexivity].
Qed.

(** the first request names rauc and its version *)
Lemma c70_agent_ok : forall getdate s rs qs out c q, stream_start getdate s rs = Some (qs, out, c) -> In q qs -> q_agent q = true.
Proof.
  intros gd s rs qs out c q H Hq. unfold stream_start in H. destruct (read_config (config_dict s)) as [c0| |]; try discriminate.
  destruct (configure_full gd _ 0 hinfo0 rs 0) as [[r n]|]; [|discriminate]. apply Some_inj in H. apply pair_equal_spec in H as [H _]. apply pair_equal_spec in H as [<- _].
  apply repeat_spec in Hq. subst q. reflexivity.
Qed.
(** polling uses the TLS settings of the configuration, and always verifies the server *)
Lemma c70_poll_tls_ok : forall getdate conf url info p rs qs out c q, poll_start getdate conf url info p rs = Some (qs, out, c) -> In q qs ->
  q_verify_peer q = true /\ q_cert q = tc_cert conf /\ option_map snd (q_key q) = tc_key conf /\ q_ca q = tc_ca conf /\ q_url q = url.
Proof.
  intros gd conf url info p rs qs out c q H Hq. unfold poll_start in H.
  assert (X : In q (stream_requests gd (make_srv url (Some (poll_access info p)) conf) rs [])).
  { unfold stream_requests. rewrite H. destruct out; [rewrite app_nil_r|]; exact Hq. }
  destruct (c70_requests_ok _ _ _ _ _ _ _ X) as (A1 & A2 & A3 & A4 & _ & A5). cbn [poll_access ac_cert ac_key ac_ca ac_no_verify] in *.
  split; [destruct (q_verify_peer q); [reflexivity|discriminate (proj1 A4 eq_refl)]|].
  do 3 (split; [assumption|]). destruct A5 as [(U & _)|(from & len & a & F & _)]; [exact U|destruct F].
Qed.
