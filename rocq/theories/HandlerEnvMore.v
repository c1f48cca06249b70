From Verif Require Import Base BaseLemmas Slot Image KeyFile EnvKey EnvKeyProofs Semver Manifest SemverProofs ManifestProofs Handlers Install InstallSpec InstallProofs
  ShellOut ShellOutSpec ShellOutProofs HandlerEnv HandlerEnvSpec HandlerEnvProofs HandlerEnvTop.
From Verif Require Context ContextProofs NbdConfigProofs.

(** ** names *)
Lemma value_none : forall q l, (forall k v, In (k, v) l -> k <> q) -> value_of q l = None.
Proof.
  intros q l. induction l as [|[k v] l IH]; intros H; [reflexivity|]. cbn [value_of]. rewrite IH by (intros k' v' Hi; apply (H k' v'); right; exact Hi).
  destruct (String.eqb_spec k q) as [->|_]; [|reflexivity]. exfalso. exact (H q v (or_introl eq_refl) eq_refl).
Qed.
Lemma assoc_none : forall q (l : list (string * string)), (forall k v, In (k, v) l -> k <> q) -> assoc q l = None.
Proof.
  intros q l. induction l as [|[k v] l IH]; intros H; [reflexivity|]. cbn [assoc].
  destruct (String.eqb_spec k q) as [->|_]; [exfalso; exact (H q v (or_introl eq_refl) eq_refl)|].
  apply IH. intros k' v' Hi. apply (H k' v'). right. exact Hi.
Qed.
Definition known (p : string) : bool :=
  existsb (fun x => has_prefix x p)
    ["RAUC_SYSTEM_"; "RAUC_CURRENT_"; "RAUC_MOUNT_"; "RAUC_BUNDLE_"; "RAUC_UPDATE_"; "RAUC_TRANSACTION_"; "RAUC_SLOT_"; "RAUC_IMAGE_"; "RAUC_SLOTS"; "RAUC_TARGET_"].
Lemma known_app : forall p s, known p = true -> known (p ++ s) = true.
Proof.
  intros p s. unfold known. rewrite !existsb_exists. intros (x & Hx & H). exists x. split; [exact Hx|].
  apply ContextProofs.has_prefix_app, H.
Qed.
Lemma told_names : forall c source m transaction slots tg k v, In (k, v) (told c source m transaction slots tg) -> known k = true.
Proof.
  intros c source m transaction slots tg k v H. unfold told in H. rewrite !in_app_iff in H.
  destruct H as [H|[H|[H|H]]].
  - unfold system_rows in H. repeat (destruct H as [H|H]; [injection H as <- _; reflexivity|]). destruct H.
  - unfold bundle_rows in H. repeat (destruct H as [H|H]; [injection H as <- _; reflexivity|]). destruct H.
  - destruct (in_numbered _ _ _ _ _ _ H) as (i & s & Hs). apply in_app_or in Hs. destruct Hs as [Hs|Hs].
    + destruct (is_target tg s); [|destruct Hs]. destruct (first_image (mf_images m) (sl_class s)); [|destruct Hs].
      unfold image_rows in Hs. repeat (destruct Hs as [Hs|Hs]; [injection Hs as <- _; reflexivity|]). destruct Hs.
    + unfold slot_rows in Hs. repeat (destruct Hs as [Hs|Hs]; [injection Hs as <- _; reflexivity|]). destruct Hs.
  - unfold list_rows in H. repeat (destruct H as [H|H]; [injection H as <- _; reflexivity|]). destruct H.
Qed.
Lemma meta_prefix : forall meta k v, In (k, v) (meta_vars meta) -> has_prefix "RAUC_META_" k = true.
Proof.
  intros meta k v H. destruct (c44_vars_ok meta k v H) as (g & kvs & k' & eg & ek & _ & _ & -> & _). reflexivity.
Qed.
Lemma prefix_part : forall p q k, has_prefix (p ++ q) k = true -> has_prefix p k = true.
Proof.
  induction p as [|a p IH]; intros q [|b k] H; try reflexivity; [discriminate H|]. cbn [append has_prefix] in *.
  apply andb_prop in H as [-> H]. apply (IH q), H.
Qed.
Lemma prefix_le : forall k, has_prefix "RAUC_META_" k = true -> has_prefix "RAUC_" k = true.
Proof. intros k H. exact (prefix_part "RAUC_" "META_" k H). Qed.
Lemma known_prefix : forall k, known k = true -> has_prefix "RAUC_" k = true.
Proof.
  intros k H. unfold known in H. apply existsb_exists in H. destruct H as (x & Hx & H).
  repeat (destruct Hx as [<-|Hx]; [eapply (prefix_part "RAUC_"); exact H|]). destruct Hx.
Qed.
Lemma prefix_spell : forall p k, has_prefix p k = true -> exists r, k = (p ++ r)%string.
Proof.
  induction p as [|a p IH]; intros k H; [exists k; reflexivity|]. destruct k as [|b k]; [discriminate H|]. cbn [has_prefix] in H.
  apply andb_prop in H as [Ha H]. apply Ascii.eqb_eq in Ha. subst b. destruct (IH k H) as (r & ->). exists r. reflexivity.
Qed.
Lemma known_meta : forall k, has_prefix "RAUC_META_" k = true -> known k = false.
Proof.
  intros k H. destruct (prefix_spell _ _ H) as (r & ->). reflexivity.
Qed.

(** ** the information of the system-info handler *)
Lemma prefix_key : forall p k v, no_char "=" p = true -> has_prefix p (k ++ String "=" v) = true -> has_prefix p k = true.
Proof.
  induction p as [|a p IH]; intros k v Hp H; [reflexivity|]. unfold no_char in *. cbn [all_chars] in Hp. apply andb_prop in Hp as [Ha Hp].
  destruct k as [|b k]; cbn [append has_prefix] in H; apply andb_prop in H as [H1 H2].
  - rewrite H1 in Ha. discriminate Ha.
  - cbn [has_prefix]. rewrite H1. apply (IH k v Hp H2).
Qed.
Lemma sysinfo_names : forall h vars, Context.system_info h = Ok vars -> forall k v, In (k, v) vars -> a_name k /\ has_prefix "RAUC_" k = true.
Proof.
  intros h vars H. destruct h as [| |text []]; cbn in H; try discriminate; apply Ok_inj in H; subst vars; [intros k v []|].
  assert (G : forall lines vars, (forall k v, In (k, v) vars -> a_name k /\ has_prefix "RAUC_" k = true) ->
    forall k v, In (k, v) (Context.read_vars lines vars) -> a_name k /\ has_prefix "RAUC_" k = true).
  { induction lines as [|l lines IH]; intros vars Hv; [exact Hv|]. cbn [Context.read_vars]. apply IH.
    destruct (has_prefix "RAUC_" l) eqn:Hl; [|exact Hv].
    destruct (g_strsplit_max "=" 2 l) as [|k' [|v' [|]]] eqn:E; try exact Hv.
    apply NbdConfigProofs.strsplit2_some in E as (-> & E). intros k v Hin.
    assert (Hin' : (k = k' /\ v = v') \/ In (k, v) vars).
    { clear -Hin. induction vars as [|[a b] vars IH]; cbn [assoc_set] in Hin.
      - destruct Hin as [Hin|[]]. injection Hin as -> ->. left; auto.
      - destruct (String.eqb_spec a k') as [->|_].
        + destruct Hin as [Hin|Hin]; [injection Hin as -> ->; left; auto|right; right; exact Hin].
        + destruct Hin as [Hin|Hin]; [right; left; exact Hin|]. destruct (IH Hin) as [H|H]; [left; exact H|right; right; exact H]. }
    destruct Hin' as [[-> ->]|Hin']; [|exact (Hv _ _ Hin')]. split; [exact E|].
    apply (prefix_key "RAUC_" k' v'); [reflexivity|exact Hl]. }
  apply G. intros k v [].
Qed.

Lemma c65_real_made : forall realdev bootslot per_slot st info h c base source m transaction slots env,
  real_environment realdev bootslot per_slot st info h c base source m transaction slots env ->
  handler_environment c base source m transaction slots (determine_target_group per_slot st info slots) env.
Proof.
  intros realdev bootslot per_slot st info h c base source m transaction slots env (Hu & Hp & Hst & Hh & He).
  split; [exact Hu|]. split.
  - intros k s Hs. destruct (target_group_spec _ _ _ _ _ _ Hu Hp Hs) as (H1 & H2 & _). auto.
  - split; [|exact He]. intros k v Hk. exact (proj1 (sysinfo_names _ _ Hh _ _ Hk)).
Qed.
(** it can always be made *)
Lemma c65_always_ok : forall realdev bootslot per_slot st info h c base source m transaction slots,
  unique_names slots -> wf_parents slots -> determine_slot_states realdev (Some bootslot) slots = Ok st -> Context.system_info h = Ok (hx_sysinfo c) ->
  exists env, real_environment realdev bootslot per_slot st info h c base source m transaction slots env.
Proof.
  intros realdev bootslot per_slot st info h c base source m transaction slots Hu Hp Hst Hh.
  destruct (made_ok c base source m transaction slots (determine_target_group per_slot st info slots) Hu) as (env & _ & _ & _ & He).
  - intros k s Hs. destruct (target_group_spec _ _ _ _ _ _ Hu Hp Hs) as (H1 & H2 & _). auto.
  - intros k v Hk. exact (proj1 (sysinfo_names _ _ Hh _ _ Hk)).
  - exists env. unfold real_environment. auto.
Qed.

(** the target slots named to the handlers are never the booted one or one of its children *)
Lemma c65_targets_ok : forall realdev bootslot per_slot st info h c base source m transaction slots env,
  real_environment realdev bootslot per_slot st info h c base source m transaction slots env ->
  exists ns, getenv "RAUC_TARGET_SLOTS" env = Some (words (map num ns)) /\
    (forall k, In k ns -> exists i s, k = S i /\ nth_error slots i = Some s /\ getenv ("RAUC_SLOT_NAME_" ++ num k) env = Some (sl_name s) /\
       forall booted, In booted slots -> st (sl_name booted) = Install.ST_BOOTED -> sl_parent booted = None ->
         sl_name s <> sl_name booted /\ sl_parent s <> Some (sl_name booted)) /\
    (forall i j s t, In (S i) ns -> In (S j) ns -> nth_error slots i = Some s -> nth_error slots j = Some t -> sl_class s = sl_class t -> i = j).
Proof.
  intros realdev bootslot per_slot st info h c base source m transaction slots env H.
  pose proof (c65_real_made _ _ _ _ _ _ _ _ _ _ _ _ _ H) as HE. destruct H as (Hu & Hp & Hst & _).
  destruct (c65_lists_ok _ _ _ _ _ _ _ _ HE) as (_ & ns & Hns & Hin). exists ns. split; [exact Hns|]. split.
  - intros k Hk. apply Hin in Hk. destruct Hk as (i & s & Hi & -> & Htg). exists i, s. split; [reflexivity|]. split; [exact Hi|].
    split; [exact (proj1 (c65_slots_ok _ _ _ _ _ _ _ _ _ _ HE Hi))|]. intros booted Hb Hbs Hbp.
    destruct (target_group_spec _ _ _ _ _ _ Hu Hp Htg) as (Hs & Hcl & r & (Hr1 & Hr2 & Hr3) & Hri & _).
    assert (Hne : sl_name r <> sl_name booted) by (intros E; rewrite E, Hbs in Hri; discriminate Hri).
    split.
    + intros E. assert (s = booted) by (apply (unique_eq slots); auto). subst s. destruct Hr3 as [[_ ->]|Hr3]; congruence.
    + intros E. destruct Hr3 as [[Hr3 _]|Hr3]; [congruence|]. rewrite E in Hr3. apply Some_inj in Hr3. congruence.
  - intros i j s t Hi Hj Hs Ht Hc. apply Hin in Hi. apply Hin in Hj. destruct Hi as (i' & s' & H1 & Ei & H2). destruct Hj as (j' & t' & H3 & Ej & H4).
    injection Ei as <-. injection Ej as <-. rewrite Hs in H1. rewrite Ht in H3. apply Some_inj in H1. apply Some_inj in H3. subst s' t'.
    rewrite Hc, H4 in H2. apply Some_inj in H2. subst t. unfold unique_names in Hu.
    assert (Hn : nth_error (map sl_name slots) i = nth_error (map sl_name slots) j).
    { rewrite (map_nth_error sl_name _ _ Hs), (map_nth_error sl_name _ _ Ht). reflexivity. }
    apply (proj1 (NoDup_nth_error (map sl_name slots)) Hu); [|exact Hn]. apply nth_error_Some. rewrite (map_nth_error sl_name _ _ Hs). discriminate.
Qed.

(** everything that does not begin with RAUC_ is as it was for rauc itself *)
Lemma c65_inherited_ok : forall realdev bootslot per_slot st info h c base source m transaction slots env q,
  real_environment realdev bootslot per_slot st info h c base source m transaction slots env ->
  a_name q -> has_prefix "RAUC_" q = false -> getenv q env = getenv q base.
Proof.
  intros realdev bootslot per_slot st info h c base source m transaction slots env q H Hq Hp.
  rewrite (env_get _ _ _ _ _ _ _ _ (c65_real_made _ _ _ _ _ _ _ _ _ _ _ _ _ H)) by exact Hq. destruct H as (_ & _ & _ & Hh & _).
  rewrite value_none.
  2:{ intros k v Hk ->. apply told_names in Hk. apply known_prefix in Hk. congruence. }
  rewrite (assoc_none q (hx_sysinfo c)).
  2:{ intros k v Hk ->. apply (sysinfo_names _ _ Hh) in Hk. destruct Hk. congruence. }
  rewrite (assoc_none q (meta_vars _)).
  2:{ intros k v Hk ->. apply meta_prefix, prefix_le in Hk. congruence. }
  cbn [first_of]. destruct (getenv q base); reflexivity.
Qed.

Lemma assoc_in : forall q v (l : list (string * string)), NoDup (map fst l) -> In (q, v) l -> assoc q l = Some v.
Proof.
  intros q v l. induction l as [|[k w] l IH]; intros Hn Hi; [destruct Hi|]. cbn [map fst] in Hn. inversion Hn as [|? ? H1 H2]; subst. cbn [assoc].
  destruct Hi as [Hi|Hi].
  - injection Hi as -> ->. rewrite String.eqb_refl. reflexivity.
  - destruct (String.eqb_spec k q) as [->|_]; [|apply IH; assumption]. exfalso. apply H1. apply (in_map fst) in Hi. exact Hi.
Qed.
Lemma value_in : forall q v l, NoDup (map fst l) -> In (q, v) l -> value_of q l = Some v.
Proof.
  intros q v l. induction l as [|[k w] l IH]; intros Hn Hi; [destruct Hi|]. cbn [map fst] in Hn. inversion Hn as [|? ? H1 H2]; subst. cbn [value_of].
  destruct Hi as [Hi|Hi].
  - injection Hi as -> ->. rewrite value_none; [rewrite String.eqb_refl; reflexivity|]. intros k' v' Hk ->. apply H1. apply (in_map fst) in Hk. exact Hk.
  - rewrite (IH H2 Hi). reflexivity.
Qed.

(** the manifest's meta data, unless something else has the same name *)
Lemma c65_meta_ok : forall realdev bootslot per_slot st info h c base source m transaction slots env g kvs k v,
  real_environment realdev bootslot per_slot st info h c base source m transaction slots env ->
  In (g, kvs) (mf_meta m) -> In (k, v) kvs -> all_chars key_char g = true -> all_chars key_char k = true ->
  let n := ("RAUC_META_" ++ smap env_conv g ++ "_" ++ smap env_conv k)%string in
  NoDup (map fst (meta_vars (mf_meta m))) -> getenv n base = None -> assoc n (hx_sysinfo c) = None ->
  getenv n env = Some v.
Proof.
  intros realdev bootslot per_slot st info h c base source m transaction slots env g kvs k v H Hg Hk Kg Kk n Hn Hb Hs.
  pose proof (c44_vars_complete_ok _ _ _ _ _ Hg Hk Kg Kk) as Hin.
  assert (Ha : a_name n).
  { pose proof (meta_names (mf_meta m)) as X. unfold names in X. rewrite Forall_forall in X. exact (X _ Hin). }
  rewrite (env_get _ _ _ _ _ _ _ _ (c65_real_made _ _ _ _ _ _ _ _ _ _ _ _ _ H)) by exact Ha. rewrite Hb, Hs.
  rewrite value_none.
  2:{ intros k' v' Hk' ->. apply told_names in Hk'. rewrite known_meta in Hk' by reflexivity. discriminate. }
  unfold n. rewrite (assoc_in _ v _ Hn Hin). reflexivity.
Qed.

(** the image: right if the bundle has no variants of it *)
Lemma first_image_for : forall imgs v c, (forall i, In i imgs -> im_class i = c -> im_variant i = None) -> first_image imgs c = image_for v imgs c.
Proof.
  intros imgs v c H. unfold first_image, image_for.
  assert (E1 : find (fun i => String.eqb (im_class i) c && has_variant v i) imgs = None).
  { destruct (find _ imgs) as [i|] eqn:E; [|reflexivity]. apply find_some in E as [Hi E]. apply andb_prop in E as [E1 E2].
    apply String.eqb_eq in E1. unfold has_variant in E2. rewrite (H i Hi E1) in E2. discriminate. }
  rewrite E1. clear E1. induction imgs as [|i imgs IH]; [reflexivity|]. cbn [find]. destruct (String.eqb_spec (im_class i) c) as [E|_].
  - unfold no_variant. rewrite (H i (or_introl eq_refl) E). reflexivity.
  - apply IH. intros j Hj. apply H. right. exact Hj.
Qed.
Lemma c65_image_right_ok : forall c base source m transaction slots tg env i s img, handler_environment c base source m transaction slots tg env ->
  nth_error slots i = Some s -> tg (sl_class s) = Some s ->
  (forall i, In i (mf_images m) -> im_class i = sl_class s -> im_variant i = None) ->
  image_for (hx_variant c) (mf_images m) (sl_class s) = Some img ->
  getenv ("RAUC_IMAGE_NAME_" ++ num (S i)) env = Some (or_empty (im_filename img)) /\
  getenv ("RAUC_IMAGE_DIGEST_" ++ num (S i)) env = Some (or_empty (im_digest img)) /\
  getenv ("RAUC_IMAGE_CLASS_" ++ num (S i)) env = Some (sl_class s).
Proof.
  intros c base source m transaction slots tg env i s img H Hi Ht Hv Hf. rewrite <- (first_image_for _ _ _ Hv) in Hf.
  exact (image_ok _ _ _ _ _ _ _ _ _ _ _ H Hi Ht Hf).
Qed.

(** ** counterexamples *)
Definition hx0 : hctx := mkHctx "/etc/rauc/system.conf" (Some "board") (Some "y") None "A" "/mnt/rauc/" [].
Definition hm (imgs : list image) (meta : list (string * list (string * string))) : manifest :=
  mkManifest (Some "board") (Some "1") None None None F_PLAIN true None None 0 None None None None false imgs meta.
Definition vimg (v f : string) : image := mkImage "rootfs" None (Some v) (Some f) 1 (Some f) (Some "ext4") true false false false [] [] [].
Definition hst : string -> slot_state := fun n => if String.eqb n "rootfs.0" then Install.ST_BOOTED else if String.eqb n "appfs.0" then Install.ST_ACTIVE else Install.ST_INACTIVE.

(** the installed image is another one than the one the handler is told *)
Lemma c65_variant_refuted : exists c base m slots st env i s img,
  real_environment (fun d => d) "A" false st ex_info Context.NoHandler c base "/b" m "1" slots env /\
  nth_error slots i = Some s /\ determine_target_group false st ex_info slots (sl_class s) = Some s /\
  image_for (hx_variant c) (mf_images m) (sl_class s) = Some img /\
  im_filename img = Some "y.ext4" /\ getenv ("RAUC_IMAGE_NAME_" ++ num (S i)) env = Some "x.ext4".
Proof.
  destruct (c65_always_ok (fun d => d) "A" false (match determine_slot_states (fun d => d) (Some "A") ex_tree with Ok s => s | _ => hst end) ex_info Context.NoHandler hx0 []
    "/b" (hm [vimg "x" "x.ext4"; vimg "y" "y.ext4"] []) "1" ex_tree) as (env & H).
  - unfold unique_names, ex_tree. repeat (constructor; [cbn; intuition discriminate|]). constructor.
  - exact ex_tree_wf.
  - reflexivity.
  - reflexivity.
  - eexists hx0, [], _, ex_tree, _, env, 2, exR1, (vimg "y" "y.ext4"). split; [exact H|].
    split; [reflexivity|]. split; [reflexivity|]. split; [reflexivity|]. split; [reflexivity|].
    refine (proj1 (image_ok _ _ _ _ _ _ _ _ 2 exR1 (vimg "x" "x.ext4") (c65_real_made _ _ _ _ _ _ _ _ _ _ _ _ _ H) _ _ _)); reflexivity.
Qed.

(** RAUC_CURRENT_BOOTNAME need not be the name of the booted slot *)
Lemma c65_bootname_refuted : exists c base m slots st env booted,
  real_environment (fun d => d) (hx_bootslot c) false st ex_info Context.NoHandler c base "/b" m "1" slots env /\
  In booted slots /\ st (sl_name booted) = Install.ST_BOOTED /\ sl_bootname booted = Some "A" /\
  getenv "RAUC_CURRENT_BOOTNAME" env = Some "/dev/a".
Proof.
  set (c := mkHctx "/etc/rauc/system.conf" (Some "board") None None "/dev/a" "/mnt/rauc/" []).
  destruct (c65_always_ok (fun d => d) "/dev/a" false (match determine_slot_states (fun d => d) (Some "/dev/a") ex_tree with Ok s => s | _ => hst end) ex_info Context.NoHandler c []
    "/b" (hm [] []) "1" ex_tree) as (env & H).
  - unfold unique_names, ex_tree. repeat (constructor; [cbn; intuition discriminate|]). constructor.
  - exact ex_tree_wf.
  - reflexivity.
  - reflexivity.
  - exists c, [], (hm [] []), ex_tree. eexists _, env, exR0. split; [exact H|]. split; [left; reflexivity|]. split; [reflexivity|]. split; [reflexivity|].
    exact (proj1 (proj2 (proj2 (proj2 (proj2 (c65_system_ok _ _ _ _ _ _ _ _ (c65_real_made _ _ _ _ _ _ _ _ _ _ _ _ _ H))))))).
Qed.

(** a variable rauc inherited wins over the bundle's meta data *)
Lemma c65_meta_shadowed_refuted : exists c st base m env,
  real_environment (fun d => d) "A" false st ex_info Context.NoHandler c base "/b" m "1" ex_tree env /\
  mf_meta m = [("update", [("poll", "3600")])] /\ getenv "RAUC_META_UPDATE_POLL" env = Some "60".
Proof.
  destruct (c65_always_ok (fun d => d) "A" false (match determine_slot_states (fun d => d) (Some "A") ex_tree with Ok s => s | _ => hst end) ex_info Context.NoHandler hx0
    ["RAUC_META_UPDATE_POLL=60"] "/b" (hm [] [("update", [("poll", "3600")])]) "1" ex_tree) as (env & H).
  - unfold unique_names, ex_tree. repeat (constructor; [cbn; intuition discriminate|]). constructor.
  - exact ex_tree_wf.
  - reflexivity.
  - reflexivity.
  - exists hx0. eexists _, _, _, env. split; [exact H|]. split; [reflexivity|].
    rewrite (env_get _ _ _ _ _ _ _ _ (c65_real_made _ _ _ _ _ _ _ _ _ _ _ _ _ H)) by reflexivity.
    rewrite value_none; [reflexivity|]. intros k v Hk ->. apply told_names in Hk. discriminate Hk.
Qed.

(** ** output of handlers *)
Lemma join_split_max : forall ch n s, join (String ch "") (split_max ch n s) = s.
Proof.
  intros ch n. induction n as [|n IH]; intros s; [reflexivity|]. induction s as [|a s IHs]; [reflexivity|].
  cbn [split_max]. destruct (Ascii.eqb_spec a ch) as [->|_].
  - specialize (IH s). destruct (split_max ch n s) as [|w ws] eqn:E.
    + exfalso. destruct n; [discriminate E|]. destruct s as [|b s]; [discriminate E|]. cbn [split_max] in E. destruct (Ascii.eqb b ch); [discriminate|].
      match type of E with match ?t with _ => _ end = _ => destruct t; discriminate end.
    + cbn [join append]. cbn [join] in IH. rewrite <- IH. destruct ws; reflexivity.
  - change ((fix go (s : string) : list string :=
         match s with
         | EmptyString => [EmptyString]
         | String a r =>
             if Ascii.eqb a ch then EmptyString :: split_max ch n r
             else match go r with
                  | w :: ws => String a w :: ws
                  | [] => [String a EmptyString]
                  end
         end) s) with (split_max ch (S n) s).
    destruct (split_max ch (S n) s) as [|w ws].
    + rewrite <- IHs. reflexivity.
    + rewrite <- IHs. destruct ws; reflexivity.
Qed.
Lemma prefixed : forall t, has_prefix "<< " ("<< " ++ t)%string = true.
Proof. intro t. cbn. destruct t; reflexivity. Qed.
Lemma line_split : forall w t, no_char " " w = true -> g_strsplit_max " " 5 ("<< " ++ w ++ " " ++ t)%string = "<<" :: w :: split_max " " 2 t.
Proof.
  intros w t H. rewrite g_strsplit_max_ne by discriminate. change ("<< " ++ w ++ " " ++ t)%string with ("<<" ++ String " " (w ++ String " " t))%string.
  cbn [Nat.sub]. rewrite split_max_cons by reflexivity. rewrite split_max_cons by exact H. reflexivity.
Qed.
Lemma c65_plain_ok : forall line, has_prefix "<< " line = false -> parse_handler_output line = Some (Printed ("# " ++ line)).
Proof. intros line H. unfold parse_handler_output. rewrite H. reflexivity. Qed.
Lemma c65_error_ok : forall t,
  parse_handler_output ("<< error " ++ t)%string = Some (Message ("Error: " ++ t)) /\
  parse_handler_output ("<< debug " ++ t)%string = Some (Message ("Debug: " ++ t)).
Proof.
  intro t. split.
  - change ("<< error " ++ t)%string with ("<< " ++ "error" ++ " " ++ t)%string. unfold parse_handler_output. rewrite prefixed, line_split by reflexivity.
    cbn [negb nth List.length Nat.ltb Nat.leb String.eqb Ascii.eqb Bool.eqb andb skipn].
    rewrite join_split_max. reflexivity.
  - change ("<< debug " ++ t)%string with ("<< " ++ "debug" ++ " " ++ t)%string. unfold parse_handler_output. rewrite prefixed, line_split by reflexivity.
    cbn [negb nth List.length Nat.ltb Nat.leb String.eqb Ascii.eqb Bool.eqb andb skipn].
    rewrite join_split_max. reflexivity.
Qed.
Lemma split_first : forall n w t, no_char " " w = true -> nothing_or_more t -> exists l, split_max " " (S n) (w ++ t)%string = w :: l.
Proof.
  intros n w t H [->|(r & ->)].
  - rewrite app_nil_r_s. exists []. apply split_max_word, H.
  - exists (split_max " " n r). change (w ++ " " ++ r)%string with (w ++ String " " r)%string. apply split_max_cons, H.
Qed.
Lemma c65_status_ok : forall w t, no_char " " w = true -> nothing_or_more t ->
  parse_handler_output ("<< handler " ++ w ++ t)%string = Some (Message ("Handler status: " ++ w)) /\
  parse_handler_output ("<< bootloader " ++ w ++ t)%string = Some (Message ("Bootloader status: " ++ w)).
Proof.
  intros w t Hw Ht. destruct (split_first 1 w t Hw Ht) as (l & El). split.
  - change ("<< handler " ++ w ++ t)%string with ("<< " ++ "handler" ++ " " ++ (w ++ t))%string. unfold parse_handler_output. rewrite prefixed, line_split by reflexivity.
    rewrite El. reflexivity.
  - change ("<< bootloader " ++ w ++ t)%string with ("<< " ++ "bootloader" ++ " " ++ (w ++ t))%string. unfold parse_handler_output. rewrite prefixed, line_split by reflexivity.
    rewrite El. reflexivity.
Qed.
Lemma c65_image_status_ok : forall n w t, no_char " " n = true -> no_char " " w = true -> nothing_or_more t ->
  parse_handler_output ("<< image " ++ n ++ " " ++ w ++ t)%string = Some (Message ("Image '" ++ n ++ "' status: " ++ w)).
Proof.
  intros n w t Hn Hw Ht. change ("<< image " ++ n ++ " " ++ w ++ t)%string with ("<< " ++ "image" ++ " " ++ (n ++ String " " (w ++ t)))%string.
  unfold parse_handler_output. rewrite prefixed, line_split by reflexivity. rewrite split_max_cons by exact Hn.
  destruct (split_first 0 w t Hw Ht) as (l & El). rewrite El. reflexivity.
Qed.
(** more than that is lost *)
Lemma c65_words_dropped_refuted :
  parse_handler_output "<< handler writing rootfs failed" = Some (Message "Handler status: writing") /\
  parse_handler_output "<< image rootfs.ext4 write failed" = Some (Message "Image 'rootfs.ext4' status: write").
Proof. split; reflexivity. Qed.
Lemma c65_unknown_ok : forall w t, no_char " " w = true -> ~ In w ["handler"; "image"; "bootloader"; "error"; "debug"] -> nothing_or_more t ->
  parse_handler_output ("<< " ++ w ++ t)%string = Some (Message ("Unknown handler output: << " ++ w ++ t)).
Proof.
  intros w t Hw Hn Ht. assert (E : exists l, g_strsplit_max " " 5 ("<< " ++ w ++ t)%string = "<<" :: w :: l).
  { rewrite g_strsplit_max_ne by discriminate. change ("<< " ++ w ++ t)%string with ("<<" ++ String " " (w ++ t))%string. cbn [Nat.sub].
    rewrite split_max_cons by reflexivity. destruct (split_first 2 w t Hw Ht) as (l & El). rewrite El. exists l. reflexivity. }
  destruct E as (l & E). unfold parse_handler_output. rewrite prefixed, E. cbn [negb nth].
  assert (G : forall x, In x ["handler"; "image"; "bootloader"; "error"; "debug"] -> String.eqb w x = false).
  { intros x Hx. apply String.eqb_neq. intros ->. exact (Hn Hx). }
  rewrite !G by (cbn; tauto). reflexivity.
Qed.
Lemma shown_total : forall line, exists s, shown_as line s.
Proof.
  intro line. unfold shown_as. destruct (has_prefix "<< " line) eqn:E; [|rewrite c65_plain_ok by exact E; eauto].
  destruct (prefix_spell _ _ E) as (r & ->). unfold parse_handler_output. rewrite E. cbn [negb].
  assert (El : exists w l, g_strsplit_max " " 5 ("<< " ++ r)%string = "<<" :: w :: l).
  { rewrite g_strsplit_max_ne by discriminate. change ("<< " ++ r)%string with ("<<" ++ String " " r)%string. cbn [Nat.sub]. rewrite split_max_cons by reflexivity.
    destruct (split_max " " 3 r) as [|w l] eqn:Es; [|eauto]. exfalso. destruct r as [|b r]; [discriminate Es|]. cbn [split_max] in Es. destruct (Ascii.eqb b " "); [discriminate|].
    match type of Es with match ?t with _ => _ end = _ => destruct t; discriminate end. }
  destruct El as (w & l & ->). cbn [List.length Nat.ltb Nat.leb].
  repeat match goal with |- exists s, (if ?b then _ else _) = Some s => destruct b end; eauto.
Qed.
Lemma seen_ok : forall lines, Forall2 shown_as lines (seen lines).
Proof.
  induction lines as [|l lines IH]; [constructor|]. unfold seen in *. cbn [flat_map]. destruct (shown_total l) as (s & Hs). unfold shown_as in Hs. rewrite Hs.
  constructor; [exact Hs|exact IH].
Qed.

(** ** running handlers *)
Lemma c65_launch_ok : forall exec name argv env ok calls out, launch_and_wait_handler exec name argv env = (ok, calls, out) ->
  calls = [mkCall (name :: argv) env] /\
  (ok = true <-> exists lines, exec (mkCall (name :: argv) env) = Some (lines, Exited 0)) /\
  (forall lines e, exec (mkCall (name :: argv) env) = Some (lines, e) -> Forall2 shown_as lines out) /\
  (exec (mkCall (name :: argv) env) = None -> out = []).
Proof.
  intros exec name argv env ok calls out H. unfold launch_and_wait_handler in H. destruct (exec _) as [[lines e]|] eqn:E; injection H as <- <- <-.
  - split; [reflexivity|]. split; [|split; [|discriminate]].
    + unfold wait_check. split.
      * intros Hw. exists lines. destruct e as [[|n]|]; try discriminate. reflexivity.
      * intros (l' & He). injection He as _ ->. reflexivity.
    + intros lines' e' H. injection H as <- <-. apply seen_ok.
  - split; [reflexivity|]. split; [|split; [discriminate|reflexivity]]. split; [discriminate|]. intros (l' & He). discriminate.
Qed.
Lemma c65_custom_ok : forall exec split dir handler args extra env a x,
  words_of split args a -> words_of split extra x ->
  launch_and_wait_custom_handler exec split dir handler args extra env = launch_and_wait_handler exec (dir ++ "/" ++ handler) (a ++ x) env.
Proof.
  intros exec split dir handler args extra env a x Ha Hx. unfold launch_and_wait_custom_handler, words_of in *.
  destruct args as [s|]; [rewrite Ha|subst a]; (destruct extra as [t|]; [rewrite Hx|subst x]); reflexivity.
Qed.
Lemma c65_custom_bad_ok : forall exec split dir handler args extra env s,
  args = Some s \/ extra = Some s -> split s = None ->
  launch_and_wait_custom_handler exec split dir handler args extra env = (false, [], []).
Proof.
  intros exec split dir handler args extra env s [-> | ->] H; unfold launch_and_wait_custom_handler.
  - rewrite H. reflexivity.
  - rewrite H. destruct args as [a|]; [destruct (split a)|]; reflexivity.
Qed.

(** ** the install-check hook *)
Lemma hook_ok : forall exec c base m dir hook cmd, exists env,
  run_bundle_hook exec c base m dir hook cmd =
    Ok (match exec (mkCall [dir ++ "/" ++ hook; cmd]%string env) with
        | None => HookFailed
        | Some (lines, e) => match e with
            | Exited n => if (n =? 0)%nat then HookOk else if (10 <=? n)%nat then match fold_left (fun _ l => Some l) lines None with Some t => HookRejected t | None => HookFailed end else HookFailed
            | Killed => HookFailed end
        end, [mkCall [dir ++ "/" ++ hook; cmd]%string env]) /\
  forall q, a_name q -> getenv q env = first_of [value_of q (meta_vars (mf_meta m)); value_of q (hook_rows c m); getenv q base].
Proof.
  intros exec c base m dir hook cmd. set (e := set_all true (hook_rows c m) base). exists (set_all true (meta_vars (mf_meta m)) e). split.
  - unfold run_bundle_hook. cbv zeta. unfold meta_strings.
    match goal with |- context [setenv_strings ?l true ?b] => change b with e end.
    rewrite strings_ok by apply meta_names. cbn [bind]. unfold in_dir. destruct (exec _) as [[lines [[|n]|]]|]; reflexivity.
  - intros q Hq. rewrite getenv_over by (auto using meta_names). unfold e. rewrite getenv_over; [|exact Hq|].
    + cbn [first_of]. destruct (value_of q (meta_vars (mf_meta m))); [reflexivity|]. destruct (value_of q (hook_rows c m)); [reflexivity|]. destruct (getenv q base); reflexivity.
    + unfold hook_rows. repeat (constructor; [reflexivity|]). constructor.
Qed.
Lemma hook_known : forall c m k v, In (k, v) (hook_rows c m) -> has_prefix "RAUC_META_" k = false.
Proof.
  intros c m k v H. unfold hook_rows in H. repeat (destruct H as [H|H]; [injection H as <- _; reflexivity|]). destruct H.
Qed.
(** what the hook finds *)
Lemma c65_hook_env_ok : forall exec c base m dir hook cmd r calls, run_bundle_hook exec c base m dir hook cmd = Ok (r, calls) ->
  exists env, calls = [mkCall [dir ++ "/" ++ hook; cmd]%string env] /\
    (forall k v, In (k, v) (hook_rows c m) -> getenv k env = Some v) /\
    (NoDup (map fst (meta_vars (mf_meta m))) -> forall g kvs k v, In (g, kvs) (mf_meta m) -> In (k, v) kvs ->
       all_chars key_char g = true -> all_chars key_char k = true ->
       getenv ("RAUC_META_" ++ smap env_conv g ++ "_" ++ smap env_conv k) env = Some v) /\
    (forall q, a_name q -> has_prefix "RAUC_" q = false -> getenv q env = getenv q base).
Proof.
  intros exec c base m dir hook cmd r calls H. destruct (hook_ok exec c base m dir hook cmd) as (env & He & Hg). rewrite He in H. apply Ok_inj in H.
  injection H as _ <-. exists env. split; [reflexivity|]. split; [|split].
  - intros k v Hk. assert (Ha : a_name k /\ value_of k (hook_rows c m) = Some v).
    { unfold hook_rows in Hk |- *. repeat (destruct Hk as [Hk|Hk]; [injection Hk as <- <-; split; reflexivity|]). destruct Hk. }
    destruct Ha as [Ha Hv]. rewrite Hg by exact Ha. rewrite value_none.
    + rewrite Hv. reflexivity.
    + intros k' v' Hk' ->. apply meta_prefix in Hk'. rewrite (hook_known _ _ _ _ Hk) in Hk'. discriminate.
  - intros Hn g kvs k v H1 H2 H3 H4. pose proof (c44_vars_complete_ok _ _ _ _ _ H1 H2 H3 H4) as Hin.
    rewrite Hg.
    + rewrite (value_in _ v _ Hn Hin). reflexivity.
    + pose proof (meta_names (mf_meta m)) as X. unfold names in X. rewrite Forall_forall in X. exact (X _ Hin).
  - intros q Hq Hp. rewrite Hg by exact Hq. rewrite value_none.
    2:{ intros k v Hk ->. apply meta_prefix, prefix_le in Hk. congruence. }
    rewrite value_none; [cbn [first_of]; destruct (getenv q base); reflexivity|]. intros k v Hk ->.
    unfold hook_rows in Hk. repeat (destruct Hk as [Hk|Hk]; [injection Hk as <- _; discriminate Hp|]). destruct Hk.
Qed.
Lemma last_line : forall lines (t : string), fold_left (fun _ l => Some l) (lines ++ [t]) None = Some t.
Proof. intros lines t. rewrite fold_left_app. reflexivity. Qed.
(** its verdict; [p]: the one call *)
Lemma c65_hook_result_ok : forall exec c base m dir hook cmd r p, run_bundle_hook exec c base m dir hook cmd = Ok (r, [p]) ->
  (r = HookOk <-> exists lines, exec p = Some (lines, Exited 0)) /\
  (forall t, r = HookRejected t <-> exists lines n, exec p = Some (lines ++ [t], Exited n) /\ (10 <= n)%nat).
Proof.
  intros exec c base m dir hook cmd r p H. destruct (hook_ok exec c base m dir hook cmd) as (env & He & _). rewrite He in H. apply Ok_inj in H.
  apply pair_equal_spec in H as [Hr Hp]. apply (f_equal (hd p)) in Hp. cbn [hd] in Hp. rewrite Hp in Hr. clear He Hp. subst r. split.
  - split.
    + intros H. destruct (exec p) as [[lines [n|]]|]; try discriminate. destruct (Nat.eqb n 0) eqn:En; [apply Nat.eqb_eq in En; subst n; first [discriminate|eauto]|].
      destruct (10 <=? n)%nat; [|discriminate]. destruct (fold_left _ lines None); discriminate.
    + intros (lines & ->). reflexivity.
  - intros t. split.
    + intros H. destruct (exec p) as [[lines [n|]]|]; try discriminate. destruct (Nat.eqb n 0) eqn:En; [apply Nat.eqb_eq in En; subst n; first [discriminate|eauto]|].
      destruct (10 <=? n)%nat eqn:E; [|discriminate]. apply Nat.leb_le in E.
      destruct lines as [|l lines] using rev_ind; [discriminate H|]. rewrite last_line in H. injection H as ->. eauto.
    + intros (lines & n & -> & Hn). destruct (Nat.eqb n 0) eqn:En; [apply Nat.eqb_eq in En; lia|]. apply Nat.leb_le in Hn. rewrite Hn, last_line. reflexivity.
Qed.
(** a hook which rejects without a word: not reported as a rejection *)
Lemma c65_silent_reject_refuted : exists exec c base m dir hook cmd calls,
  (forall p, exec p = Some ([], Exited 10)) /\
  run_bundle_hook exec c base m dir hook cmd = Ok (HookFailed, calls).
Proof.
  exists (fun _ => Some ([], Exited 10)), hx0, [], (hm [] []), "/b", "hook", "install-check". eexists. split; reflexivity.
Qed.
