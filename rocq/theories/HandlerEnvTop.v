(** C65: the documented variables, one by one. *)
From Verif Require Import Base BaseLemmas Slot Image KeyFile EnvKey EnvKeyProofs Semver Manifest Handlers Install InstallSpec InstallProofs
  Context ShellOut ShellOutSpec ShellOutProofs HandlerEnv HandlerEnvSpec HandlerEnvProofs.

(** ** the table, with names as lists of words *)
Definition wslot (i : nat) (s : slot) : list went :=
  [(["RAUC"; "SLOT"; "NAME"; dec i], sl_name s);
   (["RAUC"; "SLOT"; "CLASS"; dec i], sl_class s);
   (["RAUC"; "SLOT"; "TYPE"; dec i], sl_type s);
   (["RAUC"; "SLOT"; "DEVICE"; dec i], sl_device s);
   (["RAUC"; "SLOT"; "BOOTNAME"; dec i], or_empty (sl_bootname s));
   (["RAUC"; "SLOT"; "PARENT"; dec i], or_empty (sl_parent s))].
Definition wimage (i : nat) (img : image) : list went :=
  [(["RAUC"; "IMAGE"; "NAME"; dec i], or_empty (im_filename img));
   (["RAUC"; "IMAGE"; "DIGEST"; dec i], or_empty (im_digest img));
   (["RAUC"; "IMAGE"; "CLASS"; dec i], im_class img)].
Definition wrows (tg : target_group) (imgs : list image) (i : nat) (s : slot) : list went :=
  (if is_target tg s then match first_image imgs (sl_class s) with Some img => wimage i img | None => [] end else []) ++ wslot i s.
Definition wtold (c : hctx) (source : string) (m : manifest) (transaction : string) (slots : list slot) (tg : target_group) : list went :=
  [(["RAUC"; "SYSTEM"; "CONFIG"], hx_config c);
   (["RAUC"; "SYSTEM"; "COMPATIBLE"], or_empty (hx_compatible c));
   (["RAUC"; "SYSTEM"; "VARIANT"], or_empty (hx_variant c));
   (["RAUC"; "SYSTEM"; "VERSION"], or_empty (hx_version c));
   (["RAUC"; "CURRENT"; "BOOTNAME"], hx_bootslot c);
   (["RAUC"; "MOUNT"; "PREFIX"], hx_mount_prefix c);
   (["RAUC"; "BUNDLE"; "MOUNT"; "POINT"], source); (["RAUC"; "UPDATE"; "SOURCE"], source); (["RAUC"; "TRANSACTION"; "ID"], transaction)] ++
  numbered (wrows tg (mf_images m)) 1 slots ++
  [(["RAUC"; "SLOTS"], words (map num (seq 1 (List.length slots))));
   (["RAUC"; "TARGET"; "SLOTS"], words (map num (target_numbers tg 1 slots)))].
Lemma unw_numbered : forall A (f : nat -> A -> list went) (g : nat -> A -> list (string * string)), (forall i x, map unw (f i x) = g i x) ->
  forall l c, map unw (numbered f c l) = numbered g c l.
Proof.
  intros A f g H l. induction l as [|x l IH]; intros c; [reflexivity|]. cbn [numbered]. rewrite map_app, H, IH. reflexivity.
Qed.
Lemma wrows_ok : forall tg imgs i s, map unw (wrows tg imgs i s) = rows tg imgs i s.
Proof.
  intros tg imgs i s. unfold wrows, rows. rewrite map_app. apply f_equal2; [|reflexivity].
  destruct (is_target tg s); [|reflexivity]. destruct (first_image imgs (sl_class s)); reflexivity.
Qed.
Lemma wtold_ok : forall c source m transaction slots tg, map unw (wtold c source m transaction slots tg) = told c source m transaction slots tg.
Proof.
  intros c source m transaction slots tg. unfold wtold, told. rewrite !map_app.
  rewrite (unw_numbered _ _ (rows tg (mf_images m)) (wrows_ok tg (mf_images m))). reflexivity.
Qed.
Lemma wrows_wok : forall tg imgs i s, Forall (fun e => wok (fst e) = true) (wrows tg imgs i s).
Proof.
  intros tg imgs i s. unfold wrows. apply Forall_app. split.
  - destruct (is_target tg s); [|constructor]. destruct (first_image imgs (sl_class s)); [|constructor].
    unfold wimage. repeat constructor; cbn [fst wok forallb]; rewrite dec_no_us; reflexivity.
  - unfold wslot. repeat constructor; cbn [fst wok forallb]; rewrite dec_no_us; reflexivity.
Qed.
Lemma numbered_wok : forall tg imgs l c, Forall (fun e => wok (fst e) = true) (numbered (wrows tg imgs) c l).
Proof.
  intros tg imgs l. induction l as [|x l IH]; intros c; [constructor|]. cbn [numbered]. apply Forall_app. split; [apply wrows_wok|apply IH].
Qed.
Lemma value_told : forall c source m transaction slots tg q, wok q = true ->
  value_of (wname q) (told c source m transaction slots tg) = wlast q (wtold c source m transaction slots tg).
Proof.
  intros c source m transaction slots tg q Hq. rewrite <- wtold_ok. apply wlast_eq; [exact Hq|]. unfold wtold.
  apply Forall_app. split; [repeat constructor|]. apply Forall_app. split; [apply numbered_wok|repeat constructor].
Qed.
Lemma wrows_num : forall tg imgs i s ws v, In (ws, v) (wrows tg imgs i s) -> nth_error (nums ws) 0 = Some (dec i) /\ nth_error ws 0 = Some "RAUC" /\
  (nth_error ws 1 = Some "SLOT" \/ nth_error ws 1 = Some "IMAGE") /\ nth_error ws 3 = Some (dec i).
Proof.
  intros tg imgs i s ws v H. unfold wrows in H. apply in_app_or in H. destruct H as [H|H].
  - destruct (is_target tg s); [|destruct H]. destruct (first_image imgs (sl_class s)); [|destruct H].
    unfold wimage in H. repeat (destruct H as [H|H]; [injection H as <- _; unfold nums; cbn [filter isnum all_chars is_num]; rewrite ?dec_isnum; cbn; rewrite ?dec_isnum; cbn; auto|]). destruct H.
  - unfold wslot in H. repeat (destruct H as [H|H]; [injection H as <- _; unfold nums; cbn [filter isnum all_chars is_num]; rewrite ?dec_isnum; cbn; rewrite ?dec_isnum; cbn; auto|]). destruct H.
Qed.
Lemma in_numbered : forall A B (f : nat -> A -> list B) y l c, In y (numbered f c l) -> exists i x, In y (f i x).
Proof.
  intros A B f y l. induction l as [|x l IH]; intros c H; [destruct H|]. cbn [numbered] in H. apply in_app_or in H. destruct H as [H|H]; [eauto|eapply IH; exact H].
Qed.
(** unnumbered names are not among the numbered ones *)
Lemma numbered_none : forall tg imgs l c q, nth_error q 3 = None \/ (nth_error q 1 <> Some "SLOT" /\ nth_error q 1 <> Some "IMAGE") ->
  wlast q (numbered (wrows tg imgs) c l) = None.
Proof.
  intros tg imgs l c q H. apply wlast_none. intros ws v Hin ->. destruct (in_numbered _ _ _ _ _ _ Hin) as (i & x & Hx).
  destruct (wrows_num _ _ _ _ _ _ Hx) as (_ & _ & H1 & H2). destruct H as [H|[Ha Hb]]; [congruence|]. destruct H1; congruence.
Qed.
Lemma numbered_some : forall tg imgs l q j, nth_error (nums q) 0 = Some (dec (S j)) ->
  wlast q (numbered (wrows tg imgs) 1 l) = match nth_error l j with Some x => wlast q (wrows tg imgs (S j) x) | None => None end.
Proof.
  intros tg imgs l q j H. rewrite (numbered_last (wrows tg imgs) 0 q (S j)); [|intros i x ws v Hx; exact (proj1 (wrows_num _ _ _ _ _ _ Hx))|exact H].
  cbn [Nat.ltb Nat.leb Nat.sub]. rewrite Nat.sub_0_r. reflexivity.
Qed.

Lemma env_get : forall c base source m transaction slots tg env, handler_environment c base source m transaction slots tg env ->
  forall q, a_name q -> getenv q env =
    first_of [value_of q (told c source m transaction slots tg); getenv q base; assoc q (hx_sysinfo c); assoc q (meta_vars (mf_meta m))].
Proof.
  intros c base source m transaction slots tg env (Hu & Hw & Hs & He) q Hq.
  destruct (env_ok c base source m transaction slots tg Hu Hw Hs) as (env' & He' & Hg). rewrite He in He'. apply Ok_inj in He'. subst env'. apply Hg, Hq.
Qed.

Lemma made_ok : forall c base source m transaction slots tg,
  unique_names slots -> wf_group slots tg -> (forall k v, In (k, v) (hx_sysinfo c) -> a_name k) ->
  exists env, handler_environment c base source m transaction slots tg env.
Proof.
  intros c base source m transaction slots tg Hu Hw Hs. destruct (env_ok c base source m transaction slots tg Hu Hw Hs) as (env & He & _).
  exists env. unfold handler_environment. auto.
Qed.

Ltac table HE q :=
  rewrite (env_get _ _ _ _ _ _ _ _ HE) by reflexivity;
  match goal with |- context [value_of ?n (told ?c ?s ?m ?t ?sl ?g)] =>
    change (value_of n (told c s m t sl g)) with (value_of (wname q) (told c s m t sl g)) end;
  rewrite value_told by reflexivity; unfold wtold; rewrite !wlast_app;
  rewrite numbered_none by (first [left; reflexivity | right; split; discriminate]); reflexivity.

Lemma c65_system_ok : forall c base source m transaction slots tg env, handler_environment c base source m transaction slots tg env ->
  getenv "RAUC_SYSTEM_CONFIG" env = Some (hx_config c) /\
  getenv "RAUC_SYSTEM_COMPATIBLE" env = Some (or_empty (hx_compatible c)) /\
  getenv "RAUC_SYSTEM_VARIANT" env = Some (or_empty (hx_variant c)) /\
  getenv "RAUC_SYSTEM_VERSION" env = Some (or_empty (hx_version c)) /\
  getenv "RAUC_CURRENT_BOOTNAME" env = Some (hx_bootslot c) /\
  getenv "RAUC_MOUNT_PREFIX" env = Some (hx_mount_prefix c) /\
  getenv "RAUC_BUNDLE_MOUNT_POINT" env = Some source /\
  getenv "RAUC_UPDATE_SOURCE" env = Some source /\
  getenv "RAUC_TRANSACTION_ID" env = Some transaction.
Proof.
  intros c base source m transaction slots tg env H.
  split; [table H ["RAUC"; "SYSTEM"; "CONFIG"]|]. split; [table H ["RAUC"; "SYSTEM"; "COMPATIBLE"]|].
  split; [table H ["RAUC"; "SYSTEM"; "VARIANT"]|]. split; [table H ["RAUC"; "SYSTEM"; "VERSION"]|].
  split; [table H ["RAUC"; "CURRENT"; "BOOTNAME"]|]. split; [table H ["RAUC"; "MOUNT"; "PREFIX"]|].
  split; [table H ["RAUC"; "BUNDLE"; "MOUNT"; "POINT"]|]. split; [table H ["RAUC"; "UPDATE"; "SOURCE"]|].
  table H ["RAUC"; "TRANSACTION"; "ID"].
Qed.

Lemma target_numbers_in : forall tg slots i k, In k (target_numbers tg i slots) <->
  exists j s, nth_error slots j = Some s /\ k = (i + j)%nat /\ is_target tg s = true.
Proof.
  intros tg slots. induction slots as [|s r IH]; intros i k.
  - cbn. split; [intros []|intros (j & s & H & _); destruct j; discriminate].
  - cbn [target_numbers]. rewrite in_app_iff, IH. split.
    + intros [H|(j & t & H1 & H2 & H3)].
      * exists 0, s. destruct (is_target tg s) eqn:E; [|destruct H]. destruct H as [<-|[]]. split; [reflexivity|]. split; [lia|reflexivity].
      * exists (S j), t. split; [exact H1|]. split; [lia|exact H3].
    + intros ([|j] & t & H1 & H2 & H3).
      * injection H1 as ->. left. rewrite H3. left. lia.
      * right. exists j, t. split; [exact H1|]. split; [lia|exact H3].
Qed.
(** the two lists *)
Lemma c65_lists_ok : forall c base source m transaction slots tg env, handler_environment c base source m transaction slots tg env ->
  getenv "RAUC_SLOTS" env = Some (words (map num (seq 1 (List.length slots)))) /\
  exists ns, getenv "RAUC_TARGET_SLOTS" env = Some (words (map num ns)) /\
    (forall k, In k ns <-> exists i s, nth_error slots i = Some s /\ k = S i /\ tg (sl_class s) = Some s).
Proof.
  intros c base source m transaction slots tg env H. split; [table H ["RAUC"; "SLOTS"]|].
  exists (target_numbers tg 1 slots). split; [table H ["RAUC"; "TARGET"; "SLOTS"]|]. intros k. rewrite target_numbers_in.
  destruct H as (Hu & Hw & _). split.
  - intros (j & s & H1 & H2 & H3). exists j, s. split; [exact H1|]. split; [lia|]. unfold is_target in H3.
    destruct (tg (sl_class s)) as [t|] eqn:E; [|discriminate]. apply String.eqb_eq in H3. f_equal. symmetry.
    apply (unique_eq slots s t Hu); [eapply nth_error_In; exact H1|exact (proj1 (Hw _ _ E))|exact H3].
  - intros (j & s & H1 & H2 & H3). exists j, s. split; [exact H1|]. split; [lia|]. unfold is_target. rewrite H3. apply String.eqb_refl.
Qed.

Lemma nums_last : forall a b n, isnum a = false -> isnum b = false -> nth_error (nums ["RAUC"; a; b; dec n]) 0 = Some (dec n).
Proof.
  intros a b n Ha Hb. unfold nums. cbn [filter]. rewrite Ha, Hb. change (isnum "RAUC") with false. cbv iota. rewrite dec_isnum. reflexivity.
Qed.
Lemma value_numbered : forall c source m transaction slots tg a b i, isnum a = false -> isnum b = false ->
  no_char "_" a = true -> no_char "_" b = true -> (a = "SLOT" \/ a = "IMAGE") ->
  value_of (wname ["RAUC"; a; b; dec (S i)]) (told c source m transaction slots tg) =
  match nth_error slots i with Some x => wlast ["RAUC"; a; b; dec (S i)] (wrows tg (mf_images m) (S i) x) | None => None end.
Proof.
  intros c source m transaction slots tg a b i Ha Hb Ha' Hb' Hab.
  rewrite value_told by (cbn [wok forallb]; rewrite Ha', Hb', dec_no_us; reflexivity).
  unfold wtold. rewrite !wlast_app. rewrite (numbered_some _ _ _ _ i) by (apply nums_last; assumption).
  assert (E1 : forall l : list went, Forall (fun e => List.length (fst e) <> 4 \/ nth_error (fst e) 1 = Some "BUNDLE") l -> wlast ["RAUC"; a; b; dec (S i)] l = None).
  { intros l Hl. apply wlast_none. intros ws v Hin ->. rewrite Forall_forall in Hl. destruct (Hl _ Hin) as [H|H]; cbn in H; [congruence|].
    destruct Hab as [-> | ->]; discriminate H. }
  match goal with |- context [wlast _ [?x; ?y]] => rewrite (E1 [x; y]) end.
  2:{ constructor; [left; discriminate|]. constructor; [left; discriminate|]. constructor. }
  match goal with |- context [wlast _ (([_; "SYSTEM"; "CONFIG"], ?v) :: ?l)] => rewrite (E1 (([_; "SYSTEM"; "CONFIG"], v) :: l)) end.
  2:{ repeat (constructor; [first [right; reflexivity|left; discriminate]|]). constructor. }
  destruct (nth_error slots i) as [x|]; [|reflexivity]. destruct (wlast _ (wrows _ _ _ x)); reflexivity.
Qed.
Lemma num_name : forall p n, no_char "=" p = true -> a_name (p ++ num n)%string.
Proof. intros p n H. unfold a_name. rewrite no_char_app, H. apply dec_no_eq. Qed.

Lemma wlast_slot : forall b i s, wlast ["RAUC"; "IMAGE"; b; dec i] (wslot i s) = None.
Proof.
  intros b i s. apply wlast_none. intros ws v H ->. unfold wslot in H. repeat (destruct H as [H|H]; [discriminate H|]). destruct H.
Qed.

Ltac row HE a b Hi :=
  rewrite (env_get _ _ _ _ _ _ _ _ HE) by (apply num_name; reflexivity);
  match goal with |- context [value_of ?n (told ?c ?s ?m ?t ?sl ?g)] =>
    match n with context [num (S ?i)] =>
    change (value_of n (told c s m t sl g)) with (value_of (wname ["RAUC"; a; b; dec (S i)]) (told c s m t sl g)) end end;
  rewrite value_numbered by (first [reflexivity | left; reflexivity | right; reflexivity]); rewrite Hi; unfold wrows; rewrite wlast_app;
  unfold wslot; cbn [wlast weqb]; rewrite ?String.eqb_refl; reflexivity.

(** every slot *)
Lemma c65_slots_ok : forall c base source m transaction slots tg env i s, handler_environment c base source m transaction slots tg env ->
  nth_error slots i = Some s ->
  getenv ("RAUC_SLOT_NAME_" ++ num (S i)) env = Some (sl_name s) /\
  getenv ("RAUC_SLOT_CLASS_" ++ num (S i)) env = Some (sl_class s) /\
  getenv ("RAUC_SLOT_TYPE_" ++ num (S i)) env = Some (sl_type s) /\
  getenv ("RAUC_SLOT_DEVICE_" ++ num (S i)) env = Some (sl_device s) /\
  getenv ("RAUC_SLOT_BOOTNAME_" ++ num (S i)) env = Some (or_empty (sl_bootname s)) /\
  getenv ("RAUC_SLOT_PARENT_" ++ num (S i)) env = Some (or_empty (sl_parent s)).
Proof.
  intros c base source m transaction slots tg env i s H Hi.
  split; [row H "SLOT" "NAME" Hi|]. split; [row H "SLOT" "CLASS" Hi|]. split; [row H "SLOT" "TYPE" Hi|].
  split; [row H "SLOT" "DEVICE" Hi|]. split; [row H "SLOT" "BOOTNAME" Hi|]. row H "SLOT" "PARENT" Hi.
Qed.
Ltac irow HE b Hi Ht Hf :=
  rewrite (env_get _ _ _ _ _ _ _ _ HE) by (apply num_name; reflexivity);
  match goal with |- context [value_of ?n (told ?c ?s ?m ?t ?sl ?g)] =>
    match n with context [num (S ?i)] =>
    change (value_of n (told c s m t sl g)) with (value_of (wname ["RAUC"; "IMAGE"; b; dec (S i)]) (told c s m t sl g)) end end;
  rewrite value_numbered by (first [reflexivity | left; reflexivity | right; reflexivity]); rewrite Hi; unfold wrows; rewrite wlast_app, wlast_slot;
  rewrite Ht, Hf; unfold wimage; cbn [wlast weqb]; rewrite ?String.eqb_refl; reflexivity.

(** the image of a target slot *)
Lemma image_ok : forall c base source m transaction slots tg env i s img, handler_environment c base source m transaction slots tg env ->
  nth_error slots i = Some s -> tg (sl_class s) = Some s -> first_image (mf_images m) (sl_class s) = Some img ->
  getenv ("RAUC_IMAGE_NAME_" ++ num (S i)) env = Some (or_empty (im_filename img)) /\
  getenv ("RAUC_IMAGE_DIGEST_" ++ num (S i)) env = Some (or_empty (im_digest img)) /\
  getenv ("RAUC_IMAGE_CLASS_" ++ num (S i)) env = Some (sl_class s).
Proof.
  intros c base source m transaction slots tg env i s img H Hi Ht Hf.
  assert (Ht' : is_target tg s = true) by (unfold is_target; rewrite Ht; apply String.eqb_refl).
  assert (Hc : sl_class s = im_class img).
  { unfold first_image in Hf. apply find_some in Hf. destruct Hf as [_ Hf]. apply String.eqb_eq in Hf. symmetry. exact Hf. }
  split; [irow H "NAME" Hi Ht' Hf|]. split; [irow H "DIGEST" Hi Ht' Hf|].
  rewrite Hc at 1. irow H "CLASS" Hi Ht' Hf.
Qed.
(** other slots, and targets without image: rauc sets none *)
Lemma c65_no_image_ok : forall c base source m transaction slots tg env i s b, handler_environment c base source m transaction slots tg env ->
  nth_error slots i = Some s -> tg (sl_class s) <> Some s \/ first_image (mf_images m) (sl_class s) = None ->
  In b ["RAUC_IMAGE_NAME_"; "RAUC_IMAGE_DIGEST_"; "RAUC_IMAGE_CLASS_"] ->
  getenv (b ++ num (S i)) base = None -> assoc (b ++ num (S i)) (hx_sysinfo c) = None ->
  getenv (b ++ num (S i)) env = None.
Proof.
  intros c base source m transaction slots tg env i s b H Hi Hno Hb H1 H2.
  assert (Ht : (if is_target tg s then match first_image (mf_images m) (sl_class s) with Some img => wimage (S i) img | None => [] end else []) = []).
  { destruct (is_target tg s) eqn:E; [|reflexivity]. unfold is_target in E. destruct (tg (sl_class s)) as [t|] eqn:Et; [|discriminate].
    apply String.eqb_eq in E. destruct H as (Hu & Hw & _). assert (s = t).
    { apply (unique_eq slots s t Hu); [eapply nth_error_In; exact Hi|exact (proj1 (Hw _ _ Et))|exact E]. }
    subst t. destruct Hno as [Hno|Hno]; [congruence|]. rewrite Hno. reflexivity. }
  assert (Hmeta : assoc (b ++ num (S i)) (meta_vars (mf_meta m)) = None).
  { destruct (assoc (b ++ num (S i)) (meta_vars (mf_meta m))) as [v|] eqn:E; [|reflexivity]. exfalso.
    assert (Hin : In ((b ++ num (S i))%string, v) (meta_vars (mf_meta m))).
    { clear -E. induction (meta_vars (mf_meta m)) as [|[k w] l IH]; [discriminate|]. cbn [assoc] in E.
      destruct (String.eqb_spec k (b ++ num (S i))) as [->|_]; [injection E as ->; left; reflexivity|right; apply IH, E]. }
    destruct (c44_vars_ok _ _ _ Hin) as (g & kvs & k' & eg & ek & _ & _ & Hn & _). apply (f_equal (has_prefix "RAUC_META_")) in Hn.
    destruct Hb as [<-|[<-|[<-|[]]]]; cbn in Hn; discriminate Hn. }
  rewrite (env_get _ _ _ _ _ _ _ _ H) by (destruct Hb as [<-|[<-|[<-|[]]]]; apply num_name; reflexivity).
  rewrite H1, H2, Hmeta.
  assert (Hv : value_of (b ++ num (S i)) (told c source m transaction slots tg) = None); [|rewrite Hv; reflexivity].
  destruct Hb as [<-|[<-|[<-|[]]]].
  - change ("RAUC_IMAGE_NAME_" ++ num (S i))%string with (wname ["RAUC"; "IMAGE"; "NAME"; dec (S i)]).
    rewrite value_numbered by (first [reflexivity | right; reflexivity]). rewrite Hi. unfold wrows. rewrite Ht. apply wlast_slot.
  - change ("RAUC_IMAGE_DIGEST_" ++ num (S i))%string with (wname ["RAUC"; "IMAGE"; "DIGEST"; dec (S i)]).
    rewrite value_numbered by (first [reflexivity | right; reflexivity]). rewrite Hi. unfold wrows. rewrite Ht. apply wlast_slot.
  - change ("RAUC_IMAGE_CLASS_" ++ num (S i))%string with (wname ["RAUC"; "IMAGE"; "CLASS"; dec (S i)]).
    rewrite value_numbered by (first [reflexivity | right; reflexivity]). rewrite Hi. unfold wrows. rewrite Ht. apply wlast_slot.
Qed.
