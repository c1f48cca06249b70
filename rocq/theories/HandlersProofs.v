From Verif Require Import Base BaseLemmas Slot Image Handlers HandlersSpec.
From Coq Require Import Permutation.

Lemma lookup_some m t st h : lookup_handler m t st = Some h -> In (t, st, h) m.
Proof.
  induction m as [|[[t' st'] h'] r IH]; cbn [lookup_handler]; [discriminate|].
  destruct (String.eqb_spec t' t) as [->|]; cbn [andb].
  - destruct (String.eqb_spec st' st) as [->|]; intros H; [left; congruence|right; auto].
  - right; auto.
Qed.

Lemma lookup_in m t st h : NoDup (map fst m) -> In (t, st, h) m -> lookup_handler m t st = Some h.
Proof.
  induction m as [|[[t' st'] h'] r IH]; intros Hnd Hin; [destruct Hin|]. cbn [lookup_handler].
  inversion Hnd; subst. destruct Hin as [He|Hin].
  - inversion He; subst. now rewrite !String.eqb_refl.
  - destruct (String.eqb_spec t' t) as [->|]; cbn [andb]; [|auto].
    destruct (String.eqb_spec st' st) as [->|]; [|auto].
    exfalso. apply H1. apply in_map_iff. exists (t, st, h). auto.
Qed.

Definition pair_eqb (a b : string * string) := String.eqb (fst a) (fst b) && String.eqb (snd a) (snd b).
Fixpoint nodupb (l : list (string * string)) : bool :=
  match l with [] => true | a :: r => negb (existsb (pair_eqb a) r) && nodupb r end.
Lemma nodupb_ok l : nodupb l = true -> NoDup l.
Proof.
  induction l as [|a r IH]; cbn; [constructor|]. intros H. apply andb_true_iff in H as [H1 H2].
  constructor; [|auto]. intros Hin. apply negb_true_iff in H1.
  assert (existsb (pair_eqb a) r = true) by (apply existsb_exists; exists a; split; [assumption|unfold pair_eqb; now rewrite !String.eqb_refl]).
  congruence.
Qed.

Lemma table_nodup : NoDup (map fst image_type_map).
Proof. apply nodupb_ok. vm_compute. reflexivity. Qed.

Lemma handler_order_ok : forall m t st, Permutation image_type_map m ->
  lookup_handler m t st = get_handler_from_type t st.
Proof.
  intros m t st Hp.
  assert (Hnd : NoDup (map fst m)).
  { eapply Permutation_NoDup; [apply Permutation_map, Hp|apply table_nodup]. }
  unfold get_handler_from_type. destruct (lookup_handler image_type_map t st) as [h|] eqn:E.
  - apply lookup_some in E. apply lookup_in; [assumption|]. eapply Permutation_in; eauto.
  - destruct (lookup_handler m t st) as [h|] eqn:E2; [|reflexivity]. apply lookup_some in E2.
    rewrite (lookup_in _ t st h table_nodup) in E; [discriminate|]. eapply Permutation_in; [apply Permutation_sym|]; eauto.
Qed.

Lemma forall_table (P : string * string * handler -> bool) :
  forallb P image_type_map = true -> forall t st h, get_handler_from_type t st = Some h -> P (t, st, h) = true.
Proof.
  intros H t st h Hl. apply lookup_some in Hl. rewrite forallb_forall in H. auto.
Qed.

Definition fitsb (e : string * string * handler) : bool :=
  let '(t, st, h) := e in
  match h with
  | H_archive_to_ext4 => archive_type t && String.eqb st "ext4"
  | H_archive_to_ubifs => archive_type t && String.eqb st "ubifs"
  | H_archive_to_vfat => archive_type t && String.eqb st "vfat"
  | H_archive_to_jffs2 => archive_type t && String.eqb st "jffs2"
  | H_img_to_ubifs => negb (archive_type t) && String.eqb st "ubifs"
  | H_img_to_ubivol => negb (archive_type t) && String.eqb st "ubivol"
  | H_img_to_nor => negb (archive_type t) && String.eqb st "nor"
  | H_img_to_nand => negb (archive_type t) && String.eqb st "nand"
  | H_img_to_fs => negb (archive_type t) && mem st ["ext4"; "vfat"]
  | H_img_to_raw => negb (archive_type t) && mem st ["raw"; "ext4"; "vfat"; "jffs2"; "nor"; "nand"]
  | H_boot_emmc => negb (archive_type t) && String.eqb st "boot-emmc"
  | H_boot_mbr_switch => negb (archive_type t) && String.eqb st "boot-mbr-switch"
  | H_boot_gpt_switch => negb (archive_type t) && String.eqb st "boot-gpt-switch"
  | H_boot_raw_fallback => negb (archive_type t) && String.eqb st "boot-raw-fallback"
  | H_hook_install => false
  end.

Lemma fitsb_fits t st h : fitsb (t, st, h) = true -> handler_fits t st h.
Proof.
  unfold fitsb, handler_fits. destruct h; intros H; try discriminate;
    apply andb_true_iff in H as [H1 H2]; try apply String.eqb_eq in H2; try apply negb_true_iff in H1; auto.
Qed.

Definition fsb (e : string * string * handler) : bool :=
  let '(t, st, _) := e in
  match fs_of_type t with
  | Some f => if fs_slot st then String.eqb f st else true
  | None => true
  end.

Lemma handler_ok : forall i dest h,
  get_update_handler i dest = Ok h ->
  (im_install i = true /\ h = H_hook_install) \/
  (im_install i = false /\ exists t, im_type i = Some t /\
     handler_fits t (sl_type dest) h /\
     (* an image with a known file system is never written to a slot of another one *)
     (forall f, fs_of_type t = Some f -> fs_slot (sl_type dest) = true -> f = sl_type dest)).
Proof.
  intros i dest h. unfold get_update_handler. destruct (im_install i).
  - intros H. apply Ok_inj in H. auto.
  - destruct (im_type i) as [t|]; [|discriminate].
    destruct (get_handler_from_type t (sl_type dest)) as [h'|] eqn:E; cbn [of_option]; [|discriminate].
    intros H. apply Ok_inj in H. subst h'. right. split; [reflexivity|]. exists t. split; [reflexivity|]. split.
    + apply fitsb_fits. eapply (forall_table fitsb); [vm_compute; reflexivity|eassumption].
    + intros f Hf Hs. assert (Hb : fsb (t, sl_type dest, h) = true)
        by (eapply (forall_table fsb); [vm_compute; reflexivity|eassumption]).
      unfold fsb in Hb. rewrite Hf, Hs in Hb. now apply String.eqb_eq.
Qed.

Lemma handler_total_ok : forall i dest, get_update_handler i dest = Err <->
  (im_install i = false /\ forall t, im_type i = Some t -> forall h, ~ In (t, sl_type dest, h) image_type_map).
Proof.
  intros i dest. unfold get_update_handler. destruct (im_install i).
  { split; [discriminate|]. intros [H _]. discriminate. }
  destruct (im_type i) as [t|].
  2:{ split; [|reflexivity]. intros _. split; [reflexivity|discriminate]. }
  unfold get_handler_from_type.
  destruct (lookup_handler image_type_map t (sl_type dest)) as [h|] eqn:E; cbn [of_option].
  - split; [discriminate|]. intros [_ H]. exfalso. eapply (H t eq_refl h). now apply lookup_some.
  - split; [|reflexivity]. intros _. split; [reflexivity|]. intros t' Ht h Hin. apply Some_inj in Ht. subst t'.
    rewrite (lookup_in _ _ _ _ table_nodup Hin) in E. discriminate.
Qed.

(** *** file name patterns *)
Fixpoint srev (s : string) : string :=
  match s with EmptyString => EmptyString | String c r => (srev r ++ String c "")%string end.

Lemma srev_app a b : srev (a ++ b) = (srev b ++ srev a)%string.
Proof.
  induction a as [|c a IH]; cbn; [now rewrite app_nil_r_s|]. now rewrite IH, app_assoc_s.
Qed.

Definition star (f : string -> bool) : string -> bool :=
  fix star (s : string) : bool := f s || match s with EmptyString => false | String _ r => star r end.

Lemma star_spec f s : star f s = true <-> exists a b, s = (a ++ b)%string /\ f b = true.
Proof.
  induction s as [|c s IH]; unfold star; fold (star f).
  - rewrite orb_false_r. split; [intros H; exists "", ""; auto|].
    intros (a & b & H & Hf). destruct a; [|discriminate]. cbn in H. now subst b.
  - rewrite orb_true_iff, IH. split.
    + intros [H|(a & b & -> & H)]; [exists "", (String c s); auto|exists (String c a), b; auto].
    + intros (a & b & H & Hf). destruct a as [|d a]; [left; cbn in H; now subst b|].
      right. inversion H; subst. eauto.
Qed.

Lemma glob_star p s : glob (String "*" p) s = true <-> exists a b, s = (a ++ b)%string /\ glob p b = true.
Proof.
  apply (star_spec (glob p)).
Qed.

Lemma glob_lit p s : no_char "*" p = true -> (glob p s = true <-> s = p).
Proof.
  revert s. induction p as [|c p IH]; intros s Hn; cbn [glob].
  - destruct s; split; congruence.
  - cbn in Hn. apply andb_true_iff in Hn as [Hc Hp]. apply negb_true_iff in Hc. rewrite Hc.
    destruct s as [|d s]; [split; discriminate|]. rewrite andb_true_iff, IH by assumption.
    rewrite Ascii.eqb_eq. split; [intros [-> ->]; reflexivity|intros H; inversion H; auto].
Qed.

Lemma glob_lit_app p q s : no_char "*" p = true ->
  (glob (p ++ q) s = true <-> exists r, s = (p ++ r)%string /\ glob q r = true).
Proof.
  revert s. induction p as [|c p IH]; intros s Hn.
  - cbn [append]. split; [intros H; exists s; auto|intros (r & -> & H); auto].
  - cbn in Hn. apply andb_true_iff in Hn as [Hc Hp]. apply negb_true_iff in Hc.
    cbn [append glob]. rewrite Hc. destruct s as [|d s].
    + split; [discriminate|]. intros (r & H & _). discriminate.
    + rewrite andb_true_iff, IH by assumption. rewrite Ascii.eqb_eq. split.
      * intros [-> (r & -> & H)]. eauto.
      * intros (r & H & Hg). inversion H; subst. eauto.
Qed.

Lemma glob_suffix p s : no_char "*" p = true -> (glob (String "*" p) s = true <-> exists a, s = (a ++ p)%string).
Proof.
  intros Hn. rewrite glob_star. split.
  - intros (a & b & -> & H). apply glob_lit in H; [|assumption]. subst. eauto.
  - intros (a & ->). exists a, p. split; [reflexivity|]. now apply glob_lit.
Qed.

Lemma glob_contains p s : no_char "*" p = true -> (glob (String "*" (p ++ "*")) s = true <-> contains p s).
Proof.
  intros Hn. rewrite glob_star. unfold contains. split.
  - intros (a & b & -> & H). apply glob_lit_app in H as (r & -> & _); [|assumption]. eauto.
  - intros (a & b & ->). exists a, (p ++ b)%string. split; [reflexivity|]. apply glob_lit_app; [assumption|].
    exists b. split; [reflexivity|]. apply glob_star. exists b, "". split; [now rewrite app_nil_r_s|reflexivity].
Qed.

Lemma prefix_cmp a b x : has_prefix a x = true -> has_prefix b x = true -> has_prefix a b = true \/ has_prefix b a = true.
Proof.
  revert b x. induction a as [|c a IH]; intros b x; [now left|]. destruct b as [|d b]; [now right|].
  destruct x as [|e x]; cbn [has_prefix]; [discriminate|]. rewrite !andb_true_iff, !Ascii.eqb_eq.
  intros [-> H1] [-> H2]. destruct (IH b x H1 H2) as [H|H]; [left|right]; auto.
Qed.

Lemma suffix_differs a b u v :
  has_prefix (srev u) (srev v) = false -> has_prefix (srev v) (srev u) = false -> (a ++ u <> b ++ v)%string.
Proof.
  intros H1 H2 He. apply (f_equal srev) in He. rewrite !srev_app in He.
  destruct (prefix_cmp (srev u) (srev v) (srev u ++ srev a)) as [H|H]; try congruence.
  - apply has_prefix_app.
  - rewrite He. apply has_prefix_app.
Qed.

Lemma glob_suffix_false p base ext : no_char "*" p = true ->
  has_prefix (srev p) (srev ext) = false -> has_prefix (srev ext) (srev p) = false ->
  glob (String "*" p) (base ++ ext) = false.
Proof.
  intros Hn H1 H2. destruct (glob _ _) eqn:E; [|reflexivity]. exfalso.
  apply glob_suffix in E as (a & He); [|assumption]. symmetry in He. revert He. now apply suffix_differs.
Qed.

Lemma glob_squash_caibx base ext :
  has_prefix (srev ".caibx") (srev ext) = false -> has_prefix (srev ext) (srev ".caibx") = false ->
  glob "*.squashfs-*.caibx" (base ++ ext) = false.
Proof.
  intros H1 H2. destruct (glob _ _) eqn:E; [|reflexivity]. exfalso.
  change "*.squashfs-*.caibx" with (String "*" (".squashfs-" ++ "*.caibx")) in E.
  apply glob_star in E as (a & b & He & H). apply glob_lit_app in H as (r & -> & H); [|reflexivity].
  apply glob_suffix in H as (x & ->); [|reflexivity].
  revert He. rewrite <- !app_assoc_s. now apply suffix_differs.
Qed.

Lemma glob_contains_false p s : no_char "*" p = true -> ~ contains p s -> glob (String "*" (p ++ "*")) s = false.
Proof.
  intros Hn Hc. destruct (glob _ _) eqn:E; [|reflexivity]. exfalso. apply Hc. now apply glob_contains.
Qed.

Lemma glob_suffix_true p base : no_char "*" p = true -> glob (String "*" p) (base ++ p) = true.
Proof. intros Hn. apply glob_suffix; eauto. Qed.

Lemma glob_tar_true base ext : contains ".tar" ext -> glob "*.tar*" (base ++ ext) = true.
Proof.
  intros (a & b & ->). change "*.tar*" with (String "*" (".tar" ++ "*")). apply glob_contains; [reflexivity|].
  exists (base ++ a)%string, b. now rewrite app_assoc_s.
Qed.

Lemma not_tar e : glob "*.tar*" e = false -> ~ contains ".tar" e.
Proof. intros He Hc. apply (glob_contains ".tar" e eq_refl) in Hc. cbn [append] in Hc. congruence. Qed.

Lemma derive_ok : forall base ext t,
  In (ext, t) documented_ext ->
  In ext casync_ext \/ contains ".tar" ext \/ (~ contains ".tar" (base ++ ext) /\ ~ contains ".squashfs-" (base ++ ext)) ->
  derive_image_type (base ++ ext) = Some t.
Proof.
  intros base ext t Hin Hc.
  assert (Hncase : forall P : Prop, (~ contains ".tar" ext) -> existsb (String.eqb ext) casync_ext = false ->
    (glob "*.tar*" (base ++ ext) = false -> glob "*.squashfs-*" (base ++ ext) = false -> P) -> P).
  { intros P Hn Hca HP. destruct Hc as [Hc|[Hc|[H1 H2]]]; [|contradiction|].
    { exfalso. rewrite <- not_true_iff_false in Hca. apply Hca. apply existsb_exists. exists ext. split; [exact Hc|apply String.eqb_refl]. }
    apply HP.
    - now apply (glob_contains_false ".tar").
    - now apply (glob_contains_false ".squashfs-"). }
  unfold derive_image_type, ext_type_map. unfold documented_ext in Hin. cbn [In] in Hin.
  repeat match type of Hin with _ \/ _ => destruct Hin as [Hin|Hin] end; try (destruct Hin; fail);
    inversion Hin; subst ext t; clear Hin;
    cbn [find fst snd];
    repeat match goal with
    | |- context [if glob "*.squashfs-*.caibx" ?s then _ else _] => rewrite glob_squash_caibx by reflexivity
    | |- context [if glob (String ?c ?p) (base ++ ?p)%string then _ else _] => rewrite (glob_suffix_true p base eq_refl)
    | |- context [if glob "*.tar*" (base ++ ?e)%string then _ else _] =>
        first [ rewrite (glob_tar_true base e) by (exists ""; eexists; reflexivity)
              | apply Hncase; [apply not_tar; reflexivity|reflexivity|]; let H1 := fresh in let H2 := fresh in intros H1 H2; rewrite H1, ?H2 ]
    | |- context [if glob (String ?c ?p) (base ++ ?e)%string then _ else _] =>
        rewrite (glob_suffix_false p base e eq_refl eq_refl eq_refl)
    end; try reflexivity.
Qed.

(** the pattern "*.tar*" is not anchored *)
Lemma derive_tar_refuted : exists base, derive_image_type (base ++ ".ext4") = Some "tar" /\
  get_handler_from_type "tar" "ext4" = Some H_archive_to_ext4.
Proof. exists "rootfs.target". split; reflexivity. Qed.
