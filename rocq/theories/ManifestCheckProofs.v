From Verif Require Import Base BaseLemmas Slot Image Handlers KeyFile KeyFileLemmas EnvKey EnvKeyProofs Hex HexProofs Semver SemverProofs Manifest ManifestSpec ManifestProofs Install.

(** ** C33 *)

(** a string of exactly 64 hexadecimal digits *)
Definition hex64 (s : string) : Prop := String.length s = 64 /\ all_chars hex_digit s = true.

(** what an installation may rely on for an image that has a file in the bundle *)
Definition file_image_safe (i : image) (f : string) : Prop :=
  has_char "/" f = false /\ (exists d, im_digest i = Some d /\ hex64 d) /\ (0 <= im_size i)%Z /\
  (im_convert i <> [] -> List.length (im_convert i) = List.length (im_converted i) /\
                         Forall (fun c => has_char "/" c = false) (im_converted i)).

Lemma hex64_digest d : is_valid_digest d = true -> hex64 d.
Proof.
  unfold is_valid_digest. rewrite andb_true_iff, Nat.eqb_eq. intros [H1 H2]. split; [exact H1|].
  revert H2. apply all_chars_impl. intros c. now rewrite digit_val_hex.
Qed.
Lemma hex64_hex32 o : hex32 o = true -> exists s, o = Some s /\ hex64 s.
Proof.
  destruct o as [s|]; [|discriminate]. unfold hex32. intros H. exists s. split; [reflexivity|].
  destruct (hex_decode s 32) eqn:E; [|discriminate].
  exact (proj1 (c16_accept_ok s 32) (ex_intro _ _ E)).
Qed.

Definition same_but_size (i i' : image) : Prop :=
  i' = mkImage (im_class i) (im_artifact i) (im_variant i) (im_digest i) (im_size i') (im_filename i)
         (im_type i) (im_type_from_ext i) (im_pre i) (im_install i) (im_post i)
         (im_adaptive i) (im_convert i) (im_converted i) /\
  (im_size i' = im_size i \/ (im_install i = true /\ (im_size i < 0)%Z /\ im_size i' = 0%Z)).

Lemma bundled_image_ok i i' : check_bundled_image i = Ok i' ->
  same_but_size i i' /\ forall f, im_filename i' = Some f -> file_image_safe i' f.
Proof.
  unfold check_bundled_image. intros H. destruct (im_filename i) as [f|] eqn:Ef.
  2: { apply Ok_inj in H. subst i'. split; [split; [destruct i; reflexivity|auto]|congruence]. }
  destruct (has_char "/" f) eqn:Hs; [discriminate|].
  destruct (im_digest i) as [d|] eqn:Ed; [|discriminate].
  destruct (is_valid_digest d) eqn:Hd; [|discriminate]. cbn [negb] in H. apply hex64_digest in Hd.
  apply bind_ok in H as (j & Hj & H).
  assert (J : same_but_size i j /\ (0 <= im_size j)%Z).
  { destruct (im_size i <? 0)%Z eqn:Z.
    - destruct (im_install i) eqn:Hi; [|discriminate]. apply Ok_inj in Hj. subst j. cbn [im_size]. split; [|lia].
      split; [cbn; rewrite Hi, Ed, Ef; reflexivity|]. right. repeat split; auto. lia.
    - apply Ok_inj in Hj. subst j. split; [|lia]. split; [destruct i; reflexivity|auto]. }
  destruct J as [J1 J2].
  assert (C : j = i' /\ (im_convert i <> [] -> List.length (im_convert i) = List.length (im_converted i) /\
                         Forall (fun c => has_char "/" c = false) (im_converted i))).
  { destruct (im_convert i) as [|c cs] eqn:Ec; [apply Ok_inj in H; split; [auto|congruence]|].
    destruct (_ && _) eqn:B; [|discriminate]. apply Ok_inj in H. split; [auto|]. intros _.
    apply andb_true_iff in B as [B1 B2]. apply Nat.eqb_eq in B1. split; [exact B1|].
    rewrite forallb_forall in B2. apply Forall_forall. intros x Hx. specialize (B2 x Hx). now apply negb_true_iff in B2. }
  destruct C as [<- C]. split; [exact J1|]. intros f' Ef'. destruct J1 as [J1 _]. rewrite J1 in *. cbn in *.
  assert (f' = f) by congruence. subst f'. repeat split; eauto; now apply C.
Qed.

Lemma check_bundled_ok l : forall l', check_bundled l = Ok l' ->
  Forall2 same_but_size l l' /\ Forall (fun i => forall f, im_filename i = Some f -> file_image_safe i f) l'.
Proof.
  induction l as [|i l IH]; intros l' H; cbn [check_bundled] in H.
  - apply Ok_inj in H. subst. auto.
  - apply bind_ok in H as (i' & Hi & H). apply bind_ok in H as (r & Hr & H). apply Ok_inj in H. subst l'.
    destruct (IH _ Hr). apply bundled_image_ok in Hi as [? ?]. auto.
Qed.

(** parts common to both checks: a hook executable if any hook is used, and an image file
    for every image that is not created empty or handled by a hook *)
Definition common_safe (rauc : string) (m : manifest) : Prop :=
  check_min_rauc_version rauc (mf_min_rauc m) = true /\
  (mf_install_check m = true \/ (exists i, In i (mf_images m) /\ (im_pre i = true \/ im_install i = true \/ im_post i = true)) ->
   mf_hook m <> None) /\
  (forall i, In i (mf_images m) -> im_filename i = None ->
     (im_install i = true \/ im_type i = Some "emptyfs") /\ im_adaptive i = [] /\ im_convert i = []) /\
  (forall i, In i (mf_images m) -> im_type i = Some "emptyfs" -> im_filename i = None).

Lemma check_common_ok rauc m : check_common rauc m = true -> common_safe rauc m.
Proof.
  unfold check_common. rewrite !andb_true_iff. intros [[H1 H2] H3]. repeat split; auto.
  - intros X. destruct (mf_hook m); [discriminate|]. rewrite orb_false_r in H2. apply negb_true_iff in H2.
    apply orb_false_iff in H2 as [H2 H4]. destruct X as [X|(i & Hi & X)]; [congruence|].
    exfalso. rewrite <- not_true_iff_false in H4. apply H4. apply existsb_exists. exists i. split; [exact Hi|].
    destruct (im_pre i), (im_install i), (im_post i); intuition.
  - rewrite forallb_forall in H3. specialize (H3 _ H). unfold filename_req in H3. rewrite H0 in H3.
    apply andb_true_iff in H3 as [H3 _]. apply andb_true_iff in H3 as [H3 _].
    destruct (opt_is (im_type i) "emptyfs") eqn:E; [apply opt_is_spec in E; auto|]. cbn in H3. auto.
  - rewrite forallb_forall in H3. specialize (H3 _ H). unfold filename_req in H3. rewrite H0 in H3.
    destruct (im_adaptive i); [reflexivity|]. rewrite andb_false_r in H3. discriminate.
  - rewrite forallb_forall in H3. specialize (H3 _ H). unfold filename_req in H3. rewrite H0 in H3.
    destruct (im_convert i); [reflexivity|]. rewrite andb_false_r in H3. discriminate.
  - intros i Hi Ht. rewrite forallb_forall in H3. specialize (H3 _ Hi). unfold filename_req in H3. rewrite Ht in H3.
    destruct (im_filename i); [|reflexivity]. cbn in H3. discriminate.
Qed.

Lemma with_images_eq m l : mf_images (with_images m l) = l.
Proof. reflexivity. Qed.

Lemma c33_plain_ok : forall rauc m m', check_internal rauc m = Ok m' ->
  m' = with_images m (mf_images m') /\ Forall2 same_but_size (mf_images m) (mf_images m') /\
  common_safe rauc m /\
  (forall i f, In i (mf_images m') -> im_filename i = Some f -> file_image_safe i f) /\
  mf_format m = F_PLAIN /\
  (forall i, In i (mf_images m) -> im_artifact i = None /\ im_convert i = [] /\ im_converted i = []) /\
  mf_crypt_key m = None /\ mf_verity_hash m = None /\ mf_verity_salt m = None /\ mf_verity_size m = 0%N.
Proof.
  intros rauc m m' H. unfold check_internal in H.
  destruct (check_common rauc m) eqn:C; [|discriminate]. apply check_common_ok in C. cbn [negb] in H.
  destruct (bformat_eqb (mf_format m) F_PLAIN) eqn:F; [|discriminate]. cbn [negb] in H.
  apply bind_ok in H as (l & Hl & H). apply check_bundled_ok in Hl as [L1 L2].
  destruct (check_plain m) eqn:P; [|discriminate]. cbn [negb] in H.
  destruct (mf_crypt_key m); [discriminate|]. destruct (mf_verity_hash m); [discriminate|]. destruct (mf_verity_salt m); [discriminate|].
  destruct (N.eqb_spec (mf_verity_size m) 0) as [Z|]; [|discriminate]. apply Ok_inj in H. subst m'. cbn [mf_images with_images].
  rewrite Forall_forall in L2. unfold check_plain in P. rewrite forallb_forall in P.
  repeat match goal with |- _ /\ _ => split end; auto.
  - now destruct (mf_format m).
  - intros i Hi. specialize (P i Hi). apply andb_true_iff in P as [P P3]. apply andb_true_iff in P as [P1 P2].
    destruct (im_artifact i), (im_convert i), (im_converted i); try discriminate; auto.
Qed.

Lemma c33_external_ok : forall rauc m m', check_external rauc m = Ok m' ->
  m' = with_images m (mf_images m') /\ Forall2 same_but_size (mf_images m) (mf_images m') /\
  common_safe rauc m /\
  (forall i f, In i (mf_images m') -> im_filename i = Some f -> file_image_safe i f) /\
  mf_format m <> F_PLAIN /\
  (exists h s, mf_verity_hash m = Some h /\ hex64 h /\ mf_verity_salt m = Some s /\ hex64 s) /\
  mf_verity_size m <> 0%N /\ (mf_verity_size m mod 4096 = 0)%N /\
  (mf_format m = F_CRYPT -> exists k, mf_crypt_key m = Some k /\ hex64 k).
Proof.
  intros rauc m m' H. unfold check_external in H.
  destruct (check_common rauc m) eqn:C; [|discriminate]. apply check_common_ok in C. cbn [negb] in H.
  destruct (bformat_eqb (mf_format m) F_PLAIN) eqn:F; [discriminate|].
  destruct (bformat_eqb (mf_format m) F_CRYPT && negb (hex32 (mf_crypt_key m))) eqn:K; [discriminate|].
  destruct (negb _) eqn:V in H; [discriminate|]. apply negb_false_iff in V.
  apply andb_true_iff in V as [V V4]. apply andb_true_iff in V as [V V3]. apply andb_true_iff in V as [V1 V2].
  apply hex64_hex32 in V1 as (h & V1 & V1'). apply hex64_hex32 in V2 as (s & V2 & V2').
  apply negb_true_iff, N.eqb_neq in V3. apply N.eqb_eq in V4.
  apply bind_ok in H as (l & Hl & H). apply check_bundled_ok in Hl as [L1 L2].
  apply Ok_inj in H. subst m'. cbn [mf_images with_images]. rewrite Forall_forall in L2.
  repeat match goal with |- _ /\ _ => split end; auto.
  - intros E. now rewrite E in F.
  - now exists h, s.
  - intros E. rewrite E in K. cbn in K. apply negb_false_iff in K. now apply hex64_hex32.
Qed.

(** *** What the checks do not guarantee *)

(** an image without file can carry any "checksum" *)
Definition mf_base (f : bformat) (l : list image) : manifest :=
  mkManifest (Some "c") None None None None f true
    (Some "0000000000000000000000000000000000000000000000000000000000000000")
    (Some "0000000000000000000000000000000000000000000000000000000000000000")
    4096 None None None (Some "hook") false l [].

Definition img_empty : image :=
  mkImage "data" None None (Some "../evil") (-5) None (Some "emptyfs") false false false false [] [] [].
Definition slot_data : slot := mkSlot "data.0" "data" "/dev/sdb" "ext4" None None false false.

Lemma c33_emptyfs_refuted :
  exists m, check_external "1.14" m = Ok m /\ In img_empty (mf_images m) /\
    (* neither checksum nor size were checked *)
    im_digest img_empty = Some "../evil" /\ (im_size img_empty < 0)%Z /\
    (* the planner selects a handler for it ... *)
    get_update_handler img_empty slot_data = Ok H_archive_to_ext4 /\
    (* ... and the checks before the installation abort the process, whatever the environment is *)
    forall ck, check_plan ck (mkPlan img_empty (TSlot slot_data H_archive_to_ext4)) = Abort.
Proof.
  exists (mf_base F_VERITY [img_empty]). repeat split; auto. cbn. auto.
Qed.

(** writing drops min-rauc-version *)
Lemma c32_min_rauc_refuted : exists m m', mf_min_rauc m = Some "1.14" /\
  parse_manifest (prepare_manifest m) = Ok m' /\ mf_min_rauc m' = None /\
  check_common "1.13" m = false /\ check_common "1.13" m' = true.
Proof.
  exists (mkManifest (Some "c") None None None (Some "1.14") F_PLAIN false None None 0 None None None None false [] []).
  eexists. repeat split; vm_compute; reflexivity.
Qed.

(** a size of 2^63 or more is read as a negative number and lost when written *)
Lemma c32_size_refuted : exists kf m i, parse_manifest kf = Ok m /\ In i (mf_images m) /\
  kf_get kf "image.rootfs" "size" = Some "9223372036854775808" /\ (im_size i < 0)%Z /\
  kf_get (prepare_manifest m) "image.rootfs" "size" = None.
Proof.
  exists [("update", [("compatible", "c")]);
          ("image.rootfs", [("filename", "a.ext4"); ("size", "9223372036854775808")])].
  eexists; eexists. split; [vm_compute; reflexivity|]. split; [left; reflexivity|]. split; [reflexivity|].
  split; vm_compute; reflexivity.
Qed.

(** *** what parsing accepts *)

(** the image record [i] is what the section [g] of the file says, and the section has no
    unknown key and no unknown hook name *)
Definition image_of_group (kf : keyfile) (g : string) (i : image) : Prop :=
  parse_image_name g = (im_class i, im_artifact i, im_variant i) /\
  (forall k, In k (kf_keys kf g) ->
     In k ["sha256"; "size"; "hooks"; "filename"; "version"; "description"; "build"; "adaptive"; "convert"; "converted"] \/
     (k = "type" /\ im_artifact i = None)) /\
  (forall h, In h (kf_list kf g "hooks") -> In h ["pre-install"; "install"; "post-install"]) /\
  (im_pre i = true <-> In "pre-install" (kf_list kf g "hooks")) /\
  (im_install i = true <-> In "install" (kf_list kf g "hooks")) /\
  (im_post i = true <-> In "post-install" (kf_list kf g "hooks")) /\
  im_filename i = kf_get kf g "filename" /\ im_filename i <> Some "" /\
  im_digest i = match kf_get kf g "sha256" with Some "" => None | d => d end /\
  im_adaptive i = kf_list kf g "adaptive" /\ im_convert i = kf_list kf g "convert" /\
  im_converted i = kf_list kf g "converted" /\
  match kf_get kf g "size" with
  | None => im_size i = (-1)%Z
  | Some v => exists n, strtoull_all v = Some n /\ im_size i = to_goffset n
  end /\
  (im_artifact i <> None -> im_type i = None) /\
  (im_artifact i = None -> im_install i = false -> exists t, im_type i = Some t /\ is_image_type_supported t = true).

Lemma slot_hooks_ok l : forall p a q p' a' q', parse_slot_hooks l p a q = Some (p', a', q') ->
  (forall h, In h l -> In h ["pre-install"; "install"; "post-install"]) /\
  (p' = true <-> p = true \/ In "pre-install" l) /\ (a' = true <-> a = true \/ In "install" l) /\
  (q' = true <-> q = true \/ In "post-install" l).
Proof.
  induction l as [|h l IH]; intros p a q p' a' q' H; cbn [parse_slot_hooks] in H.
  - injection H as <- <- <-. split; [intros ? []|]. cbn [In]. tauto.
  - destruct (String.eqb_spec h "pre-install") as [->|N1].
    { apply IH in H as (H1 & H2 & H3 & H4). split; [intros ? [<-|Hi]; [cbn; auto 6|exact (H1 _ Hi)]|]. cbn [In]. rewrite H2, H3, H4.
      repeat split; intuition (try discriminate; try congruence). }
    destruct (String.eqb_spec h "install") as [->|N2].
    { apply IH in H as (H1 & H2 & H3 & H4). split; [intros ? [<-|Hi]; [cbn; auto 6|exact (H1 _ Hi)]|]. cbn [In]. rewrite H2, H3, H4.
      repeat split; intuition (try discriminate; try congruence). }
    destruct (String.eqb_spec h "post-install") as [->|N3]; [|discriminate].
    { apply IH in H as (H1 & H2 & H3 & H4). split; [intros ? [<-|Hi]; [cbn; auto 6|exact (H1 _ Hi)]|]. cbn [In]. rewrite H2, H3, H4.
      repeat split; intuition (try discriminate; try congruence). }
Qed.

Lemma kf_only_in kf g l : kf_only kf g l = true -> forall k, In k (kf_keys kf g) -> In k l.
Proof.
  unfold kf_only. rewrite forallb_forall. intros H k Hk. specialize (H k Hk). apply existsb_exists in H as (x & Hx & E).
  apply String.eqb_eq in E. now subst.
Qed.

Lemma parse_image_of_group kf g i : parse_image kf g = Ok i -> image_of_group kf g i.
Proof.
  unfold parse_image. intros H. destruct (parse_image_name g) as [[cls art] var] eqn:EN.
  apply bind_ok in H as (size & Hsz & H). apply bind_ok in H as ([[pre ins] post] & Hh & H).
  apply bind_ok in H as (fn & Hf & H). apply bind_ok in H as ([t ext] & Ht & H).
  destruct (kf_only _ _ _) eqn:K in H; [|discriminate]. apply Ok_inj in H. subst i. cbn [bind] in *.
  assert (Hh' : parse_slot_hooks (kf_list kf g "hooks") false false false = Some (pre, ins, post)).
  { destruct (parse_slot_hooks _ _ _ _); [|discriminate]. apply Ok_inj in Hh. now subst. }
  apply slot_hooks_ok in Hh' as (H1 & H2 & H3 & H4).
  unfold image_of_group. cbn [im_class im_artifact im_variant im_pre im_install im_post im_filename im_digest im_adaptive im_convert
    im_converted im_size im_type].
  split; [exact EN|]. split.
  { intros k Hk. apply (kf_only_in _ _ _ K) in Hk. apply in_app_iff in Hk as [Hk|Hk]; [left; exact Hk|].
    destruct art; cbn in Hk; [easy|]. destruct Hk as [<-|[]]. auto. }
  split; [exact H1|]. split; [rewrite H2; intuition discriminate|]. split; [rewrite H3; intuition discriminate|].
  split; [rewrite H4; intuition discriminate|].
  assert (F : fn = kf_get kf g "filename" /\ fn <> Some "").
  { unfold kf_consume in Hf. destruct (kf_get kf g "filename") as [[|c s]|]; [discriminate| |]; apply Ok_inj in Hf; subst; split; congruence. }
  split; [exact (proj1 F)|]. split; [exact (proj2 F)|].
  split. { unfold kf_consume_opt, kf_consume. destruct (kf_get kf g "sha256") as [[|c s]|]; reflexivity. }
  split; [reflexivity|]. split; [reflexivity|]. split; [reflexivity|].
  split. { destruct (kf_get kf g "size"); [|now apply Ok_inj in Hsz]. destruct (strtoull_all _) eqn:E; [|discriminate].
    apply Ok_inj in Hsz. eauto. }
  unfold parse_type in Ht. destruct art.
  - apply Ok_inj in Ht. injection Ht as <- <-. split; [reflexivity|discriminate].
  - split; [congruence|]. intros _ Hi. subst ins. apply bind_ok in Ht as ([t' e'] & _ & Ht). cbn [negb andb] in Ht.
    destruct t' as [t'|]; cbn [negb] in Ht; [|discriminate].
    destruct (is_image_type_supported t') eqn:E; cbn [negb] in Ht; [|discriminate]. apply Ok_inj in Ht. injection Ht as <- <-. eauto.
Qed.

Definition known_section (g : string) : Prop :=
  In g ["update"; "bundle"; "handler"; "hooks"; "rollout"] \/ has_prefix "image." g = true \/ has_prefix "meta." g = true.

Lemma parse_groups_strict kf gs : forall is ms, parse_groups kf gs = Ok (is, ms) ->
  Forall known_section gs /\ Forall2 (image_of_group kf) (filter (has_prefix "image.") gs) is.
Proof.
  induction gs as [|g gs IH]; intros is ms H; cbn [parse_groups] in H.
  - apply Ok_inj in H. injection H as <- <-. cbn. auto.
  - cbn [filter]. destruct (has_prefix "image." g) eqn:P1.
    + apply bind_ok in H as (i & Hi & H). apply bind_ok in H as ([is' ms'] & Hr & H). apply Ok_inj in H. injection H as <- <-.
      destruct (IH _ _ Hr) as [A B]. split; [constructor; [right; auto|exact A]|]. constructor; [now apply parse_image_of_group|exact B].
    + destruct (has_prefix "meta." g) eqn:P2.
      * apply bind_ok in H as (i & Hi & H). apply bind_ok in H as ([is' ms'] & Hr & H). apply Ok_inj in H. injection H as <- <-.
        destruct (IH _ _ Hr) as [A B]. split; [constructor; [right; auto|exact A]|exact B].
      * destruct (String.eqb_spec g "rollout") as [->|]; [|discriminate]. destruct (IH _ _ H) as [A B].
        split; [constructor; [left; cbn; auto 7|exact A]|exact B].
Qed.

Lemma c33_strict_ok : forall kf m, parse_manifest kf = Ok m ->
  (forall g, In g (kf_groups kf) -> known_section g) /\
  (forall k, In k (kf_keys kf "update") -> In k ["compatible"; "version"; "description"; "build"; "min-rauc-version"]) /\
  (forall k, In k (kf_keys kf "bundle") -> k = "format" \/ (In k ["verity-hash"; "verity-salt"; "verity-size"] /\ mf_format m <> F_PLAIN) \/
                                           (k = "crypt-key" /\ mf_format m = F_CRYPT)) /\
  (forall k, In k (kf_keys kf "handler") -> In k ["filename"; "args"]) /\
  (forall k, In k (kf_keys kf "hooks") -> In k ["filename"; "hooks"]) /\
  (forall h, In h (kf_list kf "hooks" "hooks") -> h = "install-check") /\
  (mf_install_check m = true <-> In "install-check" (kf_list kf "hooks" "hooks")) /\
  (exists c, mf_compatible m = Some c /\ kf_get kf "update" "compatible" = Some c /\ c <> "") /\
  (mf_handler_args m <> None -> mf_handler m <> None) /\
  Forall2 (image_of_group kf) (filter (has_prefix "image.") (kf_groups kf)) (mf_images m).
Proof.
  intros kf m H. unfold parse_manifest in H. apply bind_ok in H as (c & Hc & H).
  destruct (kf_only kf "update" _) eqn:K1; [|discriminate]. cbn [negb] in H. apply bind_ok in H as (f & Hf & H).
  destruct (kf_only kf "bundle" _) eqn:K2 in H; [|discriminate]. cbn [negb] in H.
  destruct (match kf_consume_opt kf "handler" "args" with Some _ => _ | None => _ end) eqn:HA in H; [discriminate|].
  destruct (kf_only kf "handler" _) eqn:K3 in H; [|discriminate]. cbn [negb] in H.
  destruct (forallb _ (kf_list kf "hooks" "hooks")) eqn:HH in H; [|discriminate]. cbn [negb] in H.
  destruct (kf_only kf "hooks" _) eqn:K4 in H; [|discriminate]. cbn [negb] in H.
  apply bind_ok in H as ([is ms] & Hg & H). apply Ok_inj in H. subst m.
  cbn [mf_format mf_install_check mf_compatible mf_handler mf_handler_args mf_images].
  apply parse_groups_strict in Hg as [G1 G2].
  split. { intros g Hgi. destruct (existsb (String.eqb g) ["update"; "bundle"; "handler"; "hooks"]) eqn:E.
    - left. apply existsb_exists in E as (x & Hx & E). apply String.eqb_eq in E. subst x. cbn in Hx |- *. tauto.
    - rewrite Forall_forall in G1. apply G1. apply filter_In. split; [exact Hgi|]. now rewrite E. }
  split; [exact (kf_only_in _ _ _ K1)|].
  split. { intros k Hk. apply (kf_only_in _ _ _ K2) in Hk. apply in_app_iff in Hk as [[<-|[]]|Hk]; [auto|]. right.
    apply in_app_iff in Hk as [Hk|Hk]; destruct f; cbn in Hk; try easy; try (left; split; [exact Hk|discriminate]).
    destruct Hk as [<-|[]]. auto. }
  split; [exact (kf_only_in _ _ _ K3)|]. split; [exact (kf_only_in _ _ _ K4)|].
  rewrite forallb_forall in HH.
  assert (HH' : forall h, In h (kf_list kf "hooks" "hooks") -> h = "install-check").
  { intros h Hi. specialize (HH h Hi). apply String.eqb_eq in HH. auto. }
  split; [exact HH'|].
  split. { destruct (kf_list kf "hooks" "hooks") as [|h l]; [cbn; intuition discriminate|]. split; [|auto]. intros _.
    left. apply HH'. now left. }
  split. { unfold kf_consume in Hc. destruct (kf_get kf "update" "compatible") as [[|x s]|]; try discriminate. apply Ok_inj in Hc. subst c.
    eexists. repeat split. discriminate. }
  split. { destruct (kf_consume_opt kf "handler" "args"), (kf_consume_opt kf "handler" "filename"); congruence. }
  assert (FF : filter (has_prefix "image.") (filter (fun g => negb (existsb (String.eqb g) ["update"; "bundle"; "handler"; "hooks"])) (kf_groups kf))
    = filter (has_prefix "image.") (kf_groups kf)).
  { generalize (kf_groups kf). intros gs. induction gs as [|g gs IH]; [reflexivity|]. cbn [filter].
    destruct (existsb (String.eqb g) ["update"; "bundle"; "handler"; "hooks"]) eqn:E; cbn [negb].
    - rewrite IH. apply existsb_exists in E as (x & Hx & E). apply String.eqb_eq in E. subst x.
      destruct Hx as [<-|[<-|[<-|[<-|[]]]]]; reflexivity.
    - cbn [filter]. now rewrite IH. }
  now rewrite FF in G2.
Qed.
