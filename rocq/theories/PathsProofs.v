From Verif Require Import Base BaseLemmas KeyFile KeyFileLemmas Config ConfigSpec ConfigFormats ConfigParents ConfigRead ConfigProofs ConfigLoad ConfigFinal HttpProofs SystemConfProofs Paths PathsSpec.
Open Scope list_scope.

(** ** names *)
Lemma p_split_app : forall a b, split_on "/" (a ++ String "/" b) = split_on "/" a ++ split_on "/" b.
Proof.
  induction a as [|c a IH]; intros b; [reflexivity|]. cbn [String.append split_on]. destruct (Ascii.eqb c "/"); [rewrite IH; reflexivity|].
  rewrite IH. destruct (split_on "/" a) eqn:E; [now destruct (split_on_nonempty "/" a)|reflexivity].
Qed.
Lemma names_app : forall a b, names (a ++ String "/" b) = names a ++ names b.
Proof. intros a b. unfold names. now rewrite p_split_app, filter_app. Qed.
Lemma names_cons : forall b, names (String "/" b) = names b.
Proof. intros b. exact (names_app "" b). Qed.
Lemma names_word : forall w, no_char "/" w = true -> w <> ""%string -> names w = [w].
Proof. intros w H N. unfold names. rewrite split_on_word by exact H. cbn [filter]. destruct (String.eqb_spec w ""); [contradiction|reflexivity]. Qed.
Definition slashes (s : string) : bool := all_chars (fun c => Ascii.eqb c "/") s.
Lemma names_before : forall t x, slashes t = true -> names (t ++ x) = names x.
Proof.
  induction t as [|c t IH]; intros x H; [reflexivity|]. unfold slashes in *. cbn [all_chars] in H. apply andb_true_iff in H as [H1 H2]. apply Ascii.eqb_eq in H1. subst c.
  cbn [String.append]. rewrite names_cons. now apply IH.
Qed.
Lemma names_after : forall t x, slashes t = true -> names (x ++ t) = names x.
Proof.
  intros [|c t] x H; [now rewrite app_nil_r_s|]. unfold slashes in *. cbn [all_chars] in H. apply andb_true_iff in H as [H1 H2]. apply Ascii.eqb_eq in H1. subst c.
  rewrite names_app. replace (names t) with (@nil string); [apply app_nil_r|]. rewrite <- (app_nil_r_s t). now rewrite names_before.
Qed.
Lemma leading_slashes : forall s, slashes (leading s) = true.
Proof. induction s as [|c s IH]; [reflexivity|]. cbn [leading]. destruct (Ascii.eqb c "/") eqn:E; [|reflexivity]. unfold slashes in *. cbn [all_chars]. now rewrite E. Qed.
Lemma leading_lstrip : forall s, s = (leading s ++ lstrip s)%string.
Proof. induction s as [|c s IH]; [reflexivity|]. cbn [leading lstrip]. destruct (Ascii.eqb c "/"); [|reflexivity]. cbn [String.append]. now rewrite <- IH. Qed.
Lemma rstrip_nil : forall s, rstrip s = ""%string -> slashes s = true.
Proof.
  induction s as [|c s IH]; intros H; [reflexivity|]. cbn [rstrip] in H. destruct (String.eqb_spec (rstrip s) ""); cbn [andb] in H; [|discriminate].
  destruct (Ascii.eqb c "/") eqn:E; [|discriminate]. unfold slashes in *. cbn [all_chars]. rewrite E. auto.
Qed.
Lemma rstrip_trailing : forall s, s = (rstrip s ++ trailing s)%string /\ slashes (trailing s) = true.
Proof.
  induction s as [|c s [IH1 IH2]]; [split; reflexivity|]. cbn [rstrip trailing]. destruct (String.eqb_spec (rstrip s) "") as [E|E]; cbn [andb].
  - destruct (Ascii.eqb c "/") eqn:C; [|split; [cbn [String.append]; now rewrite <- IH1|exact IH2]].
    split; [reflexivity|]. apply rstrip_nil in E. unfold slashes in *. cbn [all_chars]. now rewrite C.
  - split; [cbn [String.append]; now rewrite <- IH1|exact IH2].
Qed.
Lemma names_core : forall s, names (rstrip (lstrip s)) = names s.
Proof.
  intros s. rewrite (leading_lstrip s) at 2. rewrite names_before by apply leading_slashes.
  destruct (rstrip_trailing (lstrip s)) as [E1 E2]. rewrite E1 at 2. now rewrite names_after.
Qed.
Lemma names_join : forall l, names (join "/" l) = flat_map names l.
Proof.
  induction l as [|w l IH]; [reflexivity|]. destruct l as [|v l]; [cbn [join flat_map]; now rewrite app_nil_r|].
  change (join "/" (w :: v :: l)) with (w ++ String "/" (join "/" (v :: l)))%string. rewrite names_app, IH. reflexivity.
Qed.
Lemma names_filter : forall l, flat_map names (filter not_empty l) = flat_map names l.
Proof.
  induction l as [|w l IH]; [reflexivity|]. cbn [filter flat_map]. unfold not_empty at 1. destruct (String.eqb_spec w "") as [->|]; cbn [negb]; [exact IH|]. cbn [flat_map]. now rewrite IH.
Qed.
Lemma names_build : forall es, names (build_filename es) = flat_map names es.
Proof.
  intros es. unfold build_filename. rewrite <- (names_filter es). destruct (filter not_empty es) as [|a [|b r]].
  - reflexivity.
  - cbn [flat_map]. now rewrite app_nil_r.
  - rewrite names_before by apply leading_slashes. rewrite names_after by apply rstrip_trailing.
    rewrite names_join, names_filter. generalize (a :: b :: r). intros l. induction l as [|x l IH]; [reflexivity|]. cbn [map flat_map]. now rewrite names_core, IH.
Qed.
Lemma absolute_is : forall p, is_absolute p = true <-> absolute p.
Proof.
  intros p. unfold is_absolute, absolute. destruct p as [|c r]; [split; [discriminate|intros (r & H); discriminate]|].
  split; [intros H; apply (has_prefix_split "/") in H; rewrite H; eexists; reflexivity|]. intros (x & H). rewrite H. exact (has_prefix_make "/" x).
Qed.
Lemma build_absolute : forall d es, absolute d -> absolute (build_filename (d :: es)).
Proof.
  intros d es (r & ->). unfold build_filename. cbn [filter]. change (not_empty (String "/" r)) with true. cbv iota. destruct (filter not_empty es) as [|b l].
  - exists r. reflexivity.
  - cbn [leading]. change (Ascii.eqb "/" "/") with true. cbv iota. eexists. reflexivity.
Qed.
Lemma start_absolute : forall t d p, absolute p -> start t d p = t_root t.
Proof. intros t d p (r & ->). reflexivity. Qed.
Lemma start_relative : forall t d p, is_absolute p = false -> start t d p = d.
Proof.
  intros t d [|c r] H; [reflexivity|]. cbn [start]. destruct (Ascii.eqb_spec c "/") as [->|]; [|reflexivity]. unfold is_absolute in H. change (String "/" r) with ("/" ++ r)%string in H. rewrite has_prefix_make in H. discriminate.
Qed.
Lemma walk_app : forall t l m d, walk t d (l ++ m) = match walk t d l with Some x => walk t x m | None => None end.
Proof. induction l as [|n l IH]; intros m d; [reflexivity|]. cbn [app walk]. destruct (t_step t d n); [apply IH|reflexivity]. Qed.

(** ** dirname *)
Lemma has_no : forall c s, has_char c s = negb (no_char c s). Proof. reflexivity. Qed.
Lemma before_last_app : forall r name, no_char "/" name = true -> before_last (r ++ String "/" name) = r.
Proof.
  induction r as [|c r IH]; intros name H; cbn [String.append before_last].
  - rewrite has_no, H. reflexivity.
  - assert (X : has_char "/" (r ++ String "/" name) = true).
    { clear. rewrite has_no. unfold no_char. induction r as [|x r IH]; [reflexivity|]. cbn [String.append all_chars]. destruct (negb (Ascii.eqb x "/")); [exact IH|reflexivity]. }
    rewrite X. now rewrite IH.
Qed.
Lemma dirname_spec : forall t c f d, directory t c -> lies_in t c f d -> walk t (start t c (dirname f)) (names (dirname f)) = Some d.
Proof.
  intros t c f d D (ds & name & -> & NC & NE & [->|(r & ->)] & F).
  - cbn [String.append]. unfold dirname. rewrite has_no, NC. cbn [negb]. unfold finds in F. cbn in F. cbn. rewrite D. exact F.
  - unfold finds in F. assert (E : ((r ++ "/") ++ name)%string = (r ++ String "/" name)%string) by (rewrite app_assoc_s; reflexivity). rewrite E.
    unfold dirname. assert (X : has_char "/" (r ++ String "/" name) = true).
    { clear. rewrite has_no. unfold no_char. induction r as [|x r IH]; [reflexivity|]. cbn [String.append all_chars]. destruct (negb (Ascii.eqb x "/")); [exact IH|reflexivity]. }
    rewrite X, before_last_app by exact NC.
    assert (NR : names (r ++ "/") = names r) by (apply names_after; reflexivity). rewrite NR in F.
    destruct (rstrip_trailing r) as [R1 R2]. destruct (rstrip r) as [|x s] eqn:RS.
    + cbn [String.append] in R1. change (start t c "/") with (t_root t). change (names "/") with (@nil string).
      assert (N0 : names r = []) by (rewrite <- (app_nil_r_s r), names_before; [reflexivity|rewrite R1; exact R2]). rewrite N0 in F.
      replace (start t c (r ++ "/")) with (t_root t) in F; [exact F|]. destruct r as [|y r]; [reflexivity|]. rewrite <- R1 in R2. unfold slashes in R2. cbn [all_chars] in R2.
      apply andb_true_iff in R2 as [R2 _]. apply Ascii.eqb_eq in R2. subst y. reflexivity.
    + assert (N1 : names r = names (String x s)) by (rewrite R1 at 1; now rewrite names_after). rewrite N1 in F.
      replace (start t c (r ++ "/")) with (start t c (String x s)) in F; [exact F|]. rewrite R1. reflexivity.
Qed.

(** ** resolve_path *)
Lemma c82_unchanged_ok : forall cwd file p, absolute p \/ pkcs11 p -> resolve_path cwd file p = p.
Proof.
  intros cwd file p [H|(r & ->)]; unfold resolve_path.
  - destruct (has_prefix "pkcs11:" p); [reflexivity|]. apply absolute_is in H. now rewrite H.
  - now rewrite has_prefix_make.
Qed.
Lemma relative_cases : forall p, ~ absolute p -> ~ pkcs11 p -> has_prefix "pkcs11:" p = false /\ is_absolute p = false.
Proof.
  intros p A K. split.
  - destruct (has_prefix "pkcs11:" p) eqn:E; [|reflexivity]. exfalso. apply K. eexists. exact (has_prefix_split _ _ E).
  - destruct (is_absolute p) eqn:E; [|reflexivity]. exfalso. now apply A, absolute_is.
Qed.
Lemma c82_relative_ok : forall t cwd c file d p, absolute cwd -> (forall any, finds t any cwd c) -> directory t c -> lies_in t c file d ->
  ~ absolute p -> ~ pkcs11 p ->
  absolute (resolve_path cwd (Some file) p) /\ forall later x, finds t later (resolve_path cwd (Some file) p) x <-> finds t d p x.
Proof.
  intros t cwd c file d p AC FC DC L NA NP. destruct (relative_cases p NA NP) as [E1 E2]. unfold resolve_path. rewrite E1, E2.
  pose proof (dirname_spec t c file d DC L) as DS. specialize (FC c). unfold finds in FC. rewrite (start_absolute t c cwd AC) in FC. destruct (is_absolute (dirname file)) eqn:ED.
  - apply absolute_is in ED. assert (A : absolute (build_filename [dirname file; p])) by now apply build_absolute. split; [exact A|]. intros later x. unfold finds.
    rewrite (start_absolute t later _ A), names_build. cbn [flat_map]. rewrite app_nil_r, walk_app. rewrite (start_absolute t c _ ED) in DS. rewrite DS, (start_relative t d p E2). reflexivity.
  - assert (A : absolute (build_filename [cwd; dirname file; p])) by now apply build_absolute. split; [exact A|]. intros later x. unfold finds.
    rewrite (start_absolute t later _ A), names_build. cbn [flat_map]. rewrite app_nil_r, walk_app, FC, walk_app. rewrite (start_relative t c _ ED) in DS. rewrite DS, (start_relative t d p E2). reflexivity.
Qed.
Lemma c82_no_file_ok : forall t cwd c p, absolute cwd -> (forall any, finds t any cwd c) -> ~ absolute p -> ~ pkcs11 p ->
  absolute (resolve_path cwd None p) /\ forall later x, finds t later (resolve_path cwd None p) x <-> finds t c p x.
Proof.
  intros t cwd c p AC FC NA NP. destruct (relative_cases p NA NP) as [E1 E2]. unfold resolve_path. rewrite E1, E2. specialize (FC c). unfold finds in FC. rewrite (start_absolute t c cwd AC) in FC.
  assert (A : absolute (build_filename [cwd; p])) by now apply build_absolute. split; [exact A|]. intros later x. unfold finds.
  rewrite (start_absolute t later _ A), names_build. cbn [flat_map]. rewrite app_nil_r, walk_app, FC, (start_relative t c p E2). reflexivity.
Qed.

Lemma c82_means_ok : forall t cwd c file d p, absolute cwd -> (forall any, finds t any cwd c) -> directory t c -> lies_in t c file d ->
  means t d p (resolve_path cwd (Some file) p).
Proof.
  intros t cwd c file d p AC FC DC L. destruct (has_prefix "pkcs11:" p) eqn:E1.
  { left. assert (K : pkcs11 p) by (eexists; exact (has_prefix_split _ _ E1)). split; [exact K|]. apply c82_unchanged_ok. now right. }
  assert (NK : ~ pkcs11 p) by (intros (r & ->); now rewrite has_prefix_make in E1).
  right. split; [exact NK|]. destruct (is_absolute p) eqn:E2.
  - apply absolute_is in E2. rewrite (c82_unchanged_ok cwd (Some file) p (or_introl E2)). split; [exact E2|].
    intros later x. unfold finds. now rewrite !(start_absolute t _ p E2).
  - apply (c82_relative_ok t cwd c file d p AC FC DC L); [|exact NK]. intros K. apply absolute_is in K. congruence.
Qed.
Lemma c82_opt t cwd c file d o : absolute cwd -> (forall any, finds t any cwd c) -> directory t c -> lies_in t c file d ->
  opt_means t d o (option_map (resolve_path cwd (Some file)) o).
Proof. intros. destruct o as [p|]; cbn [option_map opt_means]; [|exact I]. eapply c82_means_ok; eassumption. Qed.

(** the [handlers] section *)
Lemma handlers_inv kf h kf' : parse_handlers kf = Ok (h, kf') ->
  h = (file_string kf "handlers" "system-info", file_string kf "handlers" "pre-install", file_string kf "handlers" "post-install").
Proof.
  intros E. unfold parse_handlers, section in E. unfold file_string, kf_get, has_group in *.
  destruct (kf_group kf "handlers") as [l|] eqn:G; [|apply Ok_inj in E; now injection E as <- _].
  apply mbind_inv in E as (a & kfm & E & F). apply mbind_inv in F as (u & kfn & _ & F). apply ret_inv in F as (-> & _).
  assert (H : at_ "handlers" [] l kf) by (unfold at_; now rewrite drop_nil).
  rd E H. rd E H. rd E H. apply ret_inv in E as (-> & _). reflexivity.
Qed.
Lemma file_string_group kf kf' g k : kf_group kf' g = kf_group kf g -> file_string kf' g k = file_string kf g k.
Proof. intros H. unfold file_string, kf_get. now rewrite H. Qed.
Lemma parse_config_handlers o1 o2 kf c kf' : parse_config o1 o2 kf = Ok (c, kf') ->
  f_handlers c = (file_string kf "handlers" "system-info", file_string kf "handlers" "pre-install", file_string kf "handlers" "post-install").
Proof.
  intros E. unfold parse_config in E. apply mbind_inv in E as (y & k0 & EY & E). destruct (system_present _ _ _ EY) as (l & HL).
  destruct (parse_system_inv _ _ _ _ HL EY) as (_ & _ & H1 & H2).
  apply mbind_inv in E as (kr & k1 & E1 & E). apply mbind_inv in E as (ca & k2 & E2 & E). apply mbind_inv in E as (st & k3 & E3 & E).
  apply mbind_inv in E as (po & k4 & E4 & E). apply mbind_inv in E as (en & k5 & E5 & E). apply mbind_inv in E as (ai & k6 & E6 & E).
  apply mbind_inv in E as (ha & k7 & E7 & E).
  assert (T1 : touches (eq "keyring") parse_keyring) by (unfold parse_keyring; touch).
  assert (T2 : touches (eq "casync") parse_casync) by (unfold parse_casync; touch).
  assert (T3 : touches (eq "streaming") parse_streaming) by (unfold parse_streaming; touch).
  assert (T4 : touches (eq "polling") parse_polling) by (unfold parse_polling; touch).
  assert (T5 : touches (eq "encryption") parse_encryption) by (unfold parse_encryption; touch).
  assert (T6 : touches (eq "autoinstall") parse_autoinstall) by (unfold parse_autoinstall; touch).
  destruct (T1 _ _ _ E1) as (P1 & _). destruct (T2 _ _ _ E2) as (P2 & _). destruct (T3 _ _ _ E3) as (P3 & _).
  destruct (T4 _ _ _ E4) as (P4 & _). destruct (T5 _ _ _ E5) as (P5 & _). destruct (T6 _ _ _ E6) as (P6 & _).
  assert (G : kf_group k6 "handlers" = kf_group k0 "handlers").
  { rewrite P6, P5, P4, P3, P2, P1; [reflexivity| discriminate..]. }
  repeat (apply mbind_inv in E as (? & ? & ? & E)). apply ret_inv in E as (-> & _). cbn [f_handlers].
  apply handlers_inv in E7. rewrite E7. rewrite !(file_string_group k0 k6) by exact G.
  destruct (opt_is (v_str l "bootloader") "custom") eqn:CU.
  - specialize (H2 eq_refl). unfold file_string, kf_get. rewrite H2. destruct (kf_group kf "handlers") as [lh|]; [|reflexivity].
    rewrite !assoc_drop by reflexivity. reflexivity.
  - specialize (H1 eq_refl). now rewrite !(file_string_group kf k0) by exact H1.
Qed.

Lemma c82_config_ok : forall t cwd c file d o1 o2 o3 kf cfg u,
  absolute cwd -> (forall any, finds t any cwd c) -> directory t c -> lies_in t c file d -> NoDup (kf_groups kf) ->
  load_config o1 o2 o3 kf = Ok cfg -> u = use_paths cwd (Some file) cfg ->
  opt_means t d (file_string kf "keyring" "path") (u_keyring u) /\ opt_means t d (file_string kf "keyring" "directory") (u_keydir u) /\
  opt_means t d (file_string kf "handlers" "system-info") (u_system_info u) /\
  opt_means t d (file_string kf "handlers" "pre-install") (u_pre u) /\ opt_means t d (file_string kf "handlers" "post-install") (u_post u) /\
  (forall n, In ("slot." ++ n)%string (kf_groups kf) <-> exists dev, In (n, dev) (u_devices u)) /\
  (forall n dev, In (n, dev) (u_devices u) -> exists w, file_string kf ("slot." ++ n) "device" = Some w /\ means t d w dev).
Proof.
  intros t cwd c file d o1 o2 o3 kf cfg u AC FC DC L ND HL ->. destruct (c47_slots_ok _ _ _ _ _ ND HL) as (_ & SN & SD).
  apply load_inv in HL as (kf' & E & _). pose proof (parse_config_keyring _ _ _ _ _ E) as (K1 & K2 & _). pose proof (parse_config_handlers _ _ _ _ _ E) as HH.
  unfold use_paths. rewrite HH. cbn [u_keyring u_keydir u_system_info u_pre u_post u_devices]. rewrite K1, K2.
  repeat (split; [eapply c82_opt; eassumption|]). split.
  - intros n. rewrite <- SN. rewrite in_map_iff. split.
    + intros (s & <- & Hs). eexists. apply in_map_iff. exists s. split; [reflexivity|exact Hs].
    + intros (dev & HI). apply in_map_iff in HI as (s & EQ & Hs). apply pair_equal_spec in EQ as [<- _]. exists s. auto.
  - intros n dev HI. apply in_map_iff in HI as (s & EQ & Hs). apply pair_equal_spec in EQ as [<- <-].
    destruct (SD s Hs) as (_ & F & _). exists (c_device s). split; [exact F|]. eapply c82_means_ok; eassumption.
Qed.

(** * the status file *)
Lemma not_per_slot p : absolute p \/ pkcs11 p -> String.eqb p "per-slot" = false.
Proof. intros [(r & ->)|(r & ->)]; reflexivity. Qed.
Lemma c82_status_ok : forall t cwd c file d dd s, absolute cwd -> (forall any, finds t any cwd c) -> directory t c -> lies_in t c file d ->
  (forall p, dd = Some p -> ~ pkcs11 p) ->
  match dd, s, status_location cwd (Some file) dd s with
  | None, None, Some (None, s') => s' = "per-slot"
  | None, Some s, Some (None, s') => (s = "per-slot" -> s' = s) /\ (s <> "per-slot" -> means t d s s')
  | Some p, None, Some (Some p', s') => means t d p p' /\ absolute s' /\
      forall later x, finds t later s' x <-> exists y, finds t d p y /\ t_step t y "central.raucs" = Some x
  | Some p, Some s, Some (Some p', s') => means t d p p' /\ means t d s s' /\ s <> "per-slot"
  | Some _, Some s, None => s = "per-slot"
  | _, _, _ => False
  end.
Proof.
  intros t cwd c file d dd s AC FC DC L NP. pose proof (fun p => c82_means_ok t cwd c file d p AC FC DC L) as M.
  destruct dd as [p|], s as [s|]; unfold status_location; cbn [option_map].
  - destruct (String.eqb_spec s "per-slot") as [->|NE]; [reflexivity|]. auto.
  - specialize (NP p eq_refl). destruct (M p) as [(K & _)|(_ & A & F)]; [contradiction|].
    assert (AB : absolute (build_filename [resolve_path cwd (Some file) p; "central.raucs"])) by now apply build_absolute.
    rewrite (not_per_slot _ (or_introl AB)), (c82_unchanged_ok _ _ _ (or_introl AB)). split; [apply M|]. split; [exact AB|].
    intros later x. unfold finds at 1. rewrite (start_absolute t later _ AB), names_build. cbn [flat_map]. rewrite app_nil_r, walk_app.
    change (names "central.raucs") with ["central.raucs"%string].
    pose proof (fun y => F later y) as F'. unfold finds at 1 in F'. rewrite (start_absolute t later _ A) in F'.
    destruct (walk t (t_root t) (names (resolve_path cwd (Some file) p))) as [y|] eqn:W.
    + cbn [walk]. split.
      * intros H. exists y. split; [now apply F'|]. destruct (t_step t y "central.raucs") as [z|]; [exact H|discriminate].
      * intros (y' & Y1 & Y2). apply F' in Y1. apply Some_inj in Y1. subst y'. now rewrite Y2.
    + split; [discriminate|]. intros (y' & Y1 & _). apply F' in Y1. discriminate.
  - destruct (String.eqb_spec s "per-slot") as [->|NE]; [split; [reflexivity|contradiction]|]. split; [contradiction|]. intros _. apply M.
  - reflexivity.
Qed.
