(** Proofs for C63: when the conversion must succeed, and shared files. *)
From Verif Require Import Base BaseLemmas KeyFile KeyFileLemmas Image Manifest BundleCreate BundleCreateSpec BundleCreateLink BundleCreateFrame
  BundleCreateProofs BundleCreateRun BundleCreateOut BundleCreateDone BundleCreateMore BundleCreateLive ShellWords CasyncConvert CasyncConvertSpec CasyncConvertProofs CasyncConvertRun CasyncConvertEnd CasyncConvertDone CasyncConvertTmp CasyncConvertCmd.

(** ** two images with the same file *)
Lemma each_shared : forall e o t l1 i r s l' s' f d, has_prefix "rauc-casync-" t = true -> cdir t s = Some d ->
  each_image (convert_one e o t) (l1 ++ i :: r) s = (Some l', s') -> target o i = Some f -> has_char "/" f = false ->
  (exists j, In j r /\ target o j = Some f) -> (forall j g, In j (l1 ++ i :: r) -> target o j = Some g -> f <> index_name g) ->
  refused e s' (content_path o t f).
Proof.
  intros e o t l1. induction l1 as [| h l1 IH]; intros i r s l' s' f d PT CD H TG SL (j & J & TJ) NX.
  - cbn [app each_image] in H. apply mbind_some in H as (i' & s1 & C & H). apply mbind_some in H as (r' & s2 & R & H). injection H as <- <-.
    assert (CO := convert_one_inv _ _ _ _ _ _ _ _ PT CD C). rewrite TG, SL in CO. destruct CO as (_ & _ & _ & _ & c & _ & _ & _ & _ & [CD1 | (CD1 & lg & LG & OK)]).
    + exfalso. destruct (each_loop e o t r s1 r' s2 _ PT CD1 R) as (d' & [_ _ _ _ _ _ L7 _ _]). apply (L7 j f J TJ SL); [| apply assoc_remove_eq].
      intros j' g J' T'. apply (NX j' g); [right; assumption | assumption].
    + assert (LR : exists l, s_log s2 = l ++ s_log s1).
      { eapply (log_step _ _ (fun _ => True)); [| exact R]. apply lg_each. intros q _. eapply lg_weak; [| apply lg_one]. auto. }
      destruct LR as [lr LR]. eapply refused_later; [| exact LR]. exists [], lg. auto.
  - cbn [app each_image] in H. apply mbind_some in H as (i' & s1 & C & H). apply mbind_some in H as (r' & s2 & R & H). injection H as <- <-.
    assert (CD1 : exists d1, cdir t s1 = Some d1).
    { assert (CO := convert_one_inv _ _ _ _ _ _ _ _ PT CD C). destruct (target o h) as [g |]; [| destruct CO as [_ ->]; eauto].
      destruct CO as (_ & _ & _ & _ & CO). destruct (has_char "/" g); [eauto |]. destruct CO as (c & _ & _ & _ & _ & [X | (X & _)]); eauto. }
    destruct CD1 as [d1 CD1]. eapply IH; try eassumption; [eauto |]. intros q g Q. apply NX. right. assumption.
Qed.

Lemma c63_shared_ok : forall e o b s s' n0 kf m0 l1 i l2 j l3 f x, s_out s = None -> create_casync e o b s = (Ret true false, s') ->
  assoc "manifest.raucm" b = Some (Reg n0) -> n0 < s_next s -> e_parse e (s_cont s n0) = Some kf -> parse_manifest kf = Ok m0 ->
  mf_images m0 = l1 ++ i :: l2 ++ j :: l3 -> replaced (o_ignore o) i f x -> replaced (o_ignore o) j f x ->
  (forall q g y, In q (mf_images m0) -> replaced (o_ignore o) q g y -> f <> y) ->
  exists t, refused e s' (o_tmpdir o ++ "/" ++ t ++ "/content/" ++ f).
Proof.
  intros e o b s s' n0 kf m0 l1 i l2 j l3 f x O H MB N0 EP PM IM RI RJ NX.
  destruct (c63_success_ok _ _ _ _ _ _ O H MB N0) as (kf' & m0' & _ & _ & _ & _ & _ & _ & _ & EP' & PM' & _ & _ & _ & _ & _ & _ & _ & _ & _ & _ & NSL & _).
  rewrite EP in EP'. injection EP' as <-. rewrite PM in PM'. apply Ok_inj in PM'. subst m0'.
  destruct (success_inv _ _ _ _ _ O H) as (t & x1 & m & x2 & x3 & T & PT & CC & SB & ->).
  apply make_tmp_inv in T as (_ & _ & R1 & C1 & N1 & O1 & L1). cbn [s_root s_cont s_next s_out s_log] in *.
  apply convert_content_inv in CC as (m1 & l & y1 & y2 & d & d' & -> & CY & NY & OY & _ & CD & MP & _ & EA & LP & DE & CD' & OS & KT & KC & (lg & LG) & _); [| assumption].
  destruct (MP n0 MB) as (kf2 & EP2 & PM2). rewrite C1, EP in EP2. injection EP2 as <-. rewrite PM in PM2. apply Ok_inj in PM2. subst m1.
  exists t. rewrite IM in EA. destruct (rm_tree_keeps e [t] x3) as (_ & _ & Q3). destruct (sign_keeps _ _ _ _ _ _ _ SB OS) as (ls & LS).
  assert (SL : has_char "/" f = false) by (apply (NSL i f x); [rewrite IM; apply in_or_app; right; left; reflexivity | assumption]).
  apply (refused_later e y2 _ _ (KRmTree [t] :: ls ++ lg)); [| rewrite Q3, LS, LG; cbn; rewrite app_assoc; reflexivity].
  apply target_iff in RI as [TI _]. apply target_iff in RJ as [TJ _].
  eapply each_shared; [exact PT | exact CD | exact EA | exact TI | exact SL | exists j; split; [apply in_or_app; right; left; reflexivity | assumption] |].
  intros q g Q TQ. apply (NX q g (index_name g)); [rewrite IM; assumption | apply target_iff; auto].
Qed.

(** ** completeness *)
Definition fresh (e : env) (N : nat) (s : st) : Prop := forall k, List.length (s_log s) <= k -> k < N -> assoc ("arch-" ++ a_s1 (e_ans e k))%string (s_root s) = None.

Lemma app_inj_s : forall a b c, (a ++ b)%string = (a ++ c)%string -> b = c.
Proof. induction a as [| x a IH]; intros b c H; [assumption |]. injection H as H. auto. Qed.

Lemma tool_live : forall e argv t f idx s d n, works e -> cdir t s = Some d -> has_char "/" f = false -> assoc f d = Some (Reg n) ->
  (forall q, assoc idx d <> Some (Dir q)) -> exists s', run_tool e argv t f idx s = (Some tt, s') /\ s_root s' = tput (s_root s) [t; "content"; idx] (Some (Reg (s_next s))) /\ List.length (s_log s') = S (List.length (s_log s)).
Proof.
  intros e argv t f idx s d n W CD SL F NI. unfold run_tool, mbind, ask, get. rewrite SL. cbn [s_root]. unfold cdir in CD.
  destruct (tget (s_root s) [t; "content"]) as [[| es | |] |] eqn:TG; try discriminate. injection CD as ->.
  rewrite W. unfold source. rewrite F. destruct (assoc idx d) as [[| q | |] |] eqn:AI; try (eexists; repeat split; reflexivity). destruct (NI q eq_refl).
Qed.

Lemma tmp_live : forall e p s, works e -> assoc (p ++ a_s1 (e_ans e (List.length (s_log s))))%string (s_root s) = None ->
  make_tmp e p s = (Some (p ++ a_s1 (e_ans e (List.length (s_log s))))%string, put [(p ++ a_s1 (e_ans e (List.length (s_log s))))%string] (Some (Dir [])) (lgd (KTmp p) s)).
Proof. intros e p s W F. unfold make_tmp, mbind, ask, get. cbn [s_root]. rewrite F, W. reflexivity. Qed.

Definition args_ok (o : copt) : Prop := o_args o <> Some None.
Lemma args_live : forall o s, args_ok o -> exists l, parse_args o s = (Some l, s).
Proof. intros o s A. unfold parse_args. destruct (o_args o) as [[l |] |] eqn:E; [eexists; reflexivity | destruct (A E) | eexists; reflexivity]. Qed.

Definition dist (e : env) (N : nat) : Prop := forall j k, j < k -> k < N -> a_s1 (e_ans e j) <> a_s1 (e_ans e k).

Lemma fresh_step : forall e N s s' n, fresh e N s -> List.length (s_log s) <= List.length (s_log s') ->
  (forall m, has_prefix "arch-" m = true -> m <> n -> assoc m (s_root s') = assoc m (s_root s)) ->
  (forall k, List.length (s_log s') <= k -> k < N -> ("arch-" ++ a_s1 (e_ans e k))%string <> n) -> fresh e N s'.
Proof. intros e N s s' n F L R NN k K B. rewrite R; [apply F; lia | reflexivity | apply NN; assumption]. Qed.

Lemma one_live : forall e o t i s d N, works e -> dist e N -> args_ok o -> has_prefix "rauc-casync-" t = true -> cdir t s = Some d -> fresh e N s -> List.length (s_log s) + 3 <= N ->
  (forall f, target o i = Some f -> has_char "/" f = false /\ (exists n, assoc f d = Some (Reg n)) /\ forall q, assoc (index_name f) d <> Some (Dir q)) ->
  exists i' s', convert_one e o t i s = (Some i', s') /\ fresh e N s' /\ List.length (s_log s') <= List.length (s_log s) + 3.
Proof.
  intros e o t i s d N W D AO PT CD FR BN H. unfold convert_one. unfold target in H. destruct (im_filename i) as [f |]; [| eexists _, _; split; [reflexivity | split; [assumption | lia]]].
  destruct (existsb _ _); [eexists _, _; split; [reflexivity | split; [assumption | lia]] |]. destruct (H f eq_refl) as (SL & [n F] & NI). clear H.
  assert (NT : forall m, has_prefix "arch-" m = true -> m <> t) by (intros; eapply prefix_neq; eassumption).
  assert (TP : forall m p x s, has_prefix "arch-" m = true -> assoc m (s_root (put (t :: p) x s)) = assoc m (s_root s)).
  { intros m p x s0 P. unfold put, set_root. cbn [s_root tput]. assert (Q := NT m P). destruct p; [destruct x; [apply assoc_set_neq | apply assoc_remove_neq]; congruence |].
    destruct (assoc t (s_root s0)) as [[| | |] |]; try reflexivity. apply assoc_set_neq. congruence. }
  assert (BL : exists s1, make_blob e o t f (index_name f) s = (Some tt, s1) /\ fresh e N s1 /\ List.length (s_log s1) <= List.length (s_log s) + 2).
  { unfold make_blob, mbind.
    assert (X : exists s0, (if o_desync o then ask_ok e (KStoreDir (store_path o)) else ret tt) s = (Some tt, s0) /\ s_root s0 = s_root s /\ List.length (s_log s) <= List.length (s_log s0) <= List.length (s_log s) + 1).
    { destruct (o_desync o); [rewrite ask_ok_live by assumption; eexists; repeat split; cbn; lia | eexists; repeat split; lia]. }
    destruct X as (s0 & -> & R0 & L0). destruct (args_live o s0 AO) as (args & ->).
    destruct (tool_live e (blob_argv o (content_path o t (index_name f)) (content_path o t f) args) t f (index_name f) s0 d n W) as (s1 & -> & R1 & L1); try assumption.
    { rewrite (cdir_root t s s0 R0). assumption. }
    exists s1. split; [reflexivity |]. split; [| lia]. apply (fresh_step e N s s1 ""); [assumption | lia | | discriminate].
    intros m P _. rewrite R1, <- R0. exact (TP m _ _ s0 P). }
  assert (ST : exists s1, (if is_archive f then make_arch e o t f (index_name f) else make_blob e o t f (index_name f)) s = (Some tt, s1) /\ fresh e N s1 /\ List.length (s_log s1) <= List.length (s_log s) + 2).
  { destruct (is_archive f); [| exact BL]. unfold make_arch. destruct (o_desync o); [exact BL |]. clear BL. unfold mbind.
    rewrite tmp_live; [| assumption | apply FR; lia]. set (nm := ("arch-" ++ a_s1 (e_ans e (List.length (s_log s))))%string).
    set (s0 := put [nm] (Some (Dir [])) (lgd (KTmp "arch-") s)). destruct (args_live o s0 AO) as (args & ->).
    assert (PN : has_prefix "arch-" nm = true) by reflexivity.
    assert (CD0 : cdir t s0 = Some d) by (apply (cdir_other t (lgd (KTmp "arch-") s) nm); [exact CD | apply NT; assumption]).
    destruct (tool_live e (arch_argv e o (content_path o t (index_name f)) (content_path o t f) (o_tmpdir o ++ "/" ++ nm)%string args) t f (index_name f) s0 d n W CD0 SL F NI) as (s1 & -> & R1 & L1).
    exists s1. split; [reflexivity |]. split; [| rewrite L1; cbn; lia]. apply (fresh_step e N s s1 nm); [assumption | rewrite L1; cbn; lia | |].
    - intros m P NN. rewrite R1. rewrite (TP m _ _ s0 P : assoc m (tput (s_root s0) [t; "content"; index_name f] (Some (Reg (s_next s0)))) = _).
      unfold s0, put, set_root, lgd. cbn [s_root tput]. apply assoc_set_neq. congruence.
    - intros k K B E. apply app_inj_s in E. rewrite L1 in K. cbn in K. apply (D (List.length (s_log s)) k); [lia | assumption | congruence]. }
  destruct ST as (s1 & E1 & F1 & B1). unfold mbind at 1. rewrite E1. unfold mbind, ask. rewrite W, SL. cbn [andb negb modify]. eexists _, _. split; [reflexivity |].
  split; [| cbn; lia]. apply (fresh_step e N s1 _ ""); [assumption | cbn; lia | | discriminate]. intros m P _. exact (TP m _ _ _ P).
Qed.

Lemma each_live : forall e o t N l s d, works e -> dist e N -> args_ok o -> has_prefix "rauc-casync-" t = true -> cdir t s = Some d -> fresh e N s -> List.length (s_log s) + 3 * List.length l <= N ->
  (forall i f, In i l -> target o i = Some f -> has_char "/" f = false /\ (exists n, assoc f d = Some (Reg n)) /\ forall q, assoc (index_name f) d <> Some (Dir q)) ->
  (forall i f j g, In i l -> In j l -> target o i = Some f -> target o j = Some g -> f <> index_name g) ->
  (forall l1 i l2 j l3 f, l = l1 ++ i :: l2 ++ j :: l3 -> target o i = Some f -> target o j <> Some f) ->
  exists l' s', each_image (convert_one e o t) l s = (Some l', s').
Proof.
  intros e o t N l. induction l as [| i r IH]; intros s d W D AO PT CD FR BN H NX ND; [eexists _, _; reflexivity |].
  cbn [List.length] in BN. cbn [each_image]. destruct (one_live e o t i s d N W D AO PT CD FR ltac:(lia) (fun f => H i f (or_introl eq_refl))) as (i' & s1 & E1 & F1 & B1). unfold mbind at 1. rewrite E1.
  assert (CO := convert_one_inv _ _ _ _ _ _ _ _ PT CD E1).
  assert (X : exists d1, cdir t s1 = Some d1 /\ forall j g, In j r -> target o j = Some g -> (exists n, assoc g d1 = Some (Reg n)) /\ forall q, assoc (index_name g) d1 <> Some (Dir q)).
  { destruct (target o i) as [f |] eqn:TI.
    - destruct CO as (_ & _ & _ & _ & CO). destruct (H i f (or_introl eq_refl) TI) as (SL & _). rewrite SL in CO.
      destruct CO as (c & _ & _ & _ & _ & [CD1 | (_ & lg & _ & BAD)]); [| rewrite W in BAD; discriminate]. eexists. split; [exact CD1 |].
      intros j g J TJ. destruct (H j g (or_intror J) TJ) as (_ & [n A] & NI).
      assert (NF : g <> f). { intro; subst g. apply in_split in J as (a & b & ->). exact (ND [] i a j b f eq_refl TI TJ). }
      assert (NG : g <> index_name f) by (apply (NX j g i f); [right; assumption | left; reflexivity | assumption | assumption]).
      assert (NI2 : index_name g <> f) by (apply not_eq_sym, (NX i f j g); [left; reflexivity | right; assumption | assumption | assumption]).
      split; [exists n; rewrite assoc_remove_neq, assoc_set_neq by congruence; assumption |].
      intros q. rewrite assoc_remove_neq by congruence. rewrite assoc_set_neq by (intro E; apply index_inj in E; congruence). apply NI.
    - destruct CO as [_ ->]. exists d. split; [assumption |]. intros j g J TJ. destruct (H j g (or_intror J) TJ) as (_ & ? & ?). auto. }
  destruct X as (d1 & CD1 & H1). destruct (IH s1 d1 W D AO PT CD1 F1 ltac:(lia)) as (l' & s2 & E2).
  - intros j g J TJ. destruct (H1 j g J TJ). destruct (H j g (or_intror J) TJ) as (? & _). auto.
  - intros a f c g A C. apply NX; right; assumption.
  - intros l1 a l2 c l3 f E. apply (ND (i :: l1) a l2 c l3 f). cbn. congruence.
  - unfold mbind. rewrite E2. eexists _, _. reflexivity.
Qed.

Lemma reindexed_check : forall ig l l' r, Forall2 (reindexed ig) l l' -> check_bundled l = Ok r ->
  (forall i f, In i l' -> im_filename i = Some f -> has_char "/" f = false) -> exists r', check_bundled l' = Ok r'.
Proof.
  intros ig l l' r F. revert r. induction F as [| i i' l l' R F IH]; intros r H NS; [eexists; reflexivity |].
  cbn [check_bundled] in *. unfold bind in *. destruct (check_bundled_image i) as [x | |] eqn:C; try discriminate.
  destruct (check_bundled l) as [y | |] eqn:CL; try discriminate. destruct (IH y eq_refl) as (r' & ->); [intros; eapply NS; [right |]; eassumption |].
  assert (X : exists z, check_bundled_image i' = Ok z); [| destruct X as (z & ->); eexists; reflexivity].
  assert (NF := NS i'). destruct R as (_ & _ & _ & R4 & R5 & _ & _ & R8 & _ & _ & R11 & R12 & RF). unfold check_bundled_image in *. unfold bind in *.
  rewrite R4, R5, R8, R11, R12.
  assert (Q : im_filename i = None /\ im_filename i' = None \/ exists f f', im_filename i = Some f /\ im_filename i' = Some f').
  { destruct (im_filename i) as [f |]; [right | left; auto]. destruct RF as [[_ E] | (_ & x' & _ & E)]; eauto. }
  destruct Q as [[Q1 Q2] | (f & f' & Q1 & Q2)]; rewrite Q1 in C; rewrite Q2; [eexists; reflexivity |].
  rewrite (NF f' (or_introl eq_refl) Q2). destruct (has_char "/" f); [discriminate |]. destruct (im_digest i) as [dg |]; [| discriminate]. destruct (is_valid_digest dg); cbn [negb] in *; [| discriminate].
  destruct (im_size i <? 0)%Z; [destruct (im_install i); [| discriminate] |]; (destruct (im_convert i); [eexists; reflexivity |]; destruct (_ && _); [eexists; reflexivity | discriminate]).
Qed.

Lemma reindexed_filename_req : forall ig i i', reindexed ig i i' -> im_pre i' = im_pre i /\ im_install i' = im_install i /\ im_post i' = im_post i /\ filename_req i' = filename_req i.
Proof.
  intros ig i i' (_ & R2 & _ & _ & _ & R6 & R7 & R8 & R9 & R10 & R11 & _ & RF). repeat (split; [assumption |]). unfold filename_req. rewrite R6, R8, R10, R11.
  destruct (im_filename i) as [f |]; [destruct RF as [[_ ->] | (_ & ? & _ & ->)] | rewrite RF]; reflexivity.
Qed.
Lemma reindexed_plain : forall ig m l, Forall2 (reindexed ig) (mf_images m) l -> check_plain (with_images m l) = check_plain m.
Proof.
  intros ig m l F. unfold check_plain. cbn [with_images mf_images]. induction F as [| i i' r r' R F IH]; [reflexivity |].
  cbn [forallb]. rewrite IH. destruct R as (_ & R2 & _ & _ & _ & _ & _ & _ & _ & _ & R11 & R12 & _). rewrite R2, R11, R12. reflexivity.
Qed.

Lemma sign_live : forall e m l s out, works e ->
  (forall k, hex32 (Some (a_s1 (e_ans e k))) = true /\ hex32 (Some (a_s2 (e_ans e k))) = true /\ (a_n (e_ans e k) <> 0)%N /\ (a_n (e_ans e k) mod 4096 = 0)%N) ->
  signable e (without_verity m) -> forall ig, Forall2 (reindexed ig) (mf_images m) l -> (forall i f, In i l -> im_filename i = Some f -> has_char "/" f = false) ->
  s_out s = Some out -> exists s', sign_bundle e (with_images (without_verity m) l) s = (FVal tt, s').
Proof.
  intros e m l s out W V SG ig FR NS O.
  assert (CM : forall m1, mf_images m1 = mf_images m -> check_common (e_rauc e) (with_images m1 l) = check_common (e_rauc e) m1).
  { intros m1 E. apply (common_live _ m1 l (reindexed ig)); [apply reindexed_filename_req | rewrite E; assumption]. }
  assert (SL : forall m1 s1, (exists r, (if bformat_eqb (mf_format m1) F_PLAIN then check_internal (e_rauc e) m1 else check_external (e_rauc e) m1) = Ok r) -> exists s', lift (sign e m1) s1 = (FVal tt, s')).
  { intros m1 s1 (r & E). unfold lift, sign. rewrite E. unfold mbind, rewrite_out, mbind, ask, get. rewrite W. eexists. reflexivity. }
  unfold sign_bundle, signable in *. change (mf_format (with_images (without_verity m) l)) with (mf_format m). change (mf_format (without_verity m)) with (mf_format m) in SG.
  destruct (bformat_eqb (mf_format m) F_PLAIN) eqn:PL.
  - apply SL. change (mf_format (with_images (without_verity m) l)) with (mf_format m). rewrite PL. destruct SG as (r & SG).
    unfold check_internal in *. rewrite CM by reflexivity. destruct (check_common (e_rauc e) (without_verity m)); cbn [negb] in *; [| discriminate].
    change (mf_format (with_images (without_verity m) l)) with (mf_format m). change (mf_format (without_verity m)) with (mf_format m) in SG. rewrite PL in *. cbn [negb] in *.
    unfold bind in *. change (mf_images (without_verity m)) with (mf_images m) in SG. change (mf_images (with_images (without_verity m) l)) with l.
    destruct (check_bundled (mf_images m)) as [y | |] eqn:CB; try discriminate. destruct (reindexed_check _ _ _ _ FR CB NS) as (r' & ->).
    rewrite (reindexed_plain ig (without_verity m) l FR). destruct (check_plain (without_verity m)); cbn [negb] in *; [| discriminate].
    change (mf_crypt_key (with_images (without_verity m) l)) with (mf_crypt_key m). change (mf_crypt_key (without_verity m)) with (mf_crypt_key m) in SG.
    destruct (mf_crypt_key m); [discriminate |]. eexists. reflexivity.
  - assert (X : exists a s1, create_verity e (with_images (without_verity m) l) s = (FVal (with_verity (with_images (without_verity m) l) (a_s1 a) (a_s2 a) (a_n a)), s1) /\ exists k, a = e_ans e k).
    { unfold create_verity, lift. rewrite ask_ok_live by assumption. change (mf_verity_salt (with_images (without_verity m) l)) with (@None string). change (mf_verity_hash (with_images (without_verity m) l)) with (@None string).
      change (mf_verity_size (with_images (without_verity m) l)) with 0%N. cbn [N.eqb]. unfold mbind, rewrite_out, mbind, ask, get. rewrite W. eexists _, _. split; [reflexivity | eauto]. }
    destruct X as (a & s1 & -> & k & ->). apply SL. destruct (V k) as (V1 & V2 & V3 & V4). destruct (SG _ _ _ V1 V2 V3 V4) as (r & E).
    change (mf_format (with_verity (with_images (without_verity m) l) (a_s1 (e_ans e k)) (a_s2 (e_ans e k)) (a_n (e_ans e k)))) with (mf_format m). rewrite PL.
    set (h := a_s1 (e_ans e k)) in *. set (sa := a_s2 (e_ans e k)) in *. set (n := a_n (e_ans e k)) in *.
    change (with_verity (with_images (without_verity m) l) h sa n) with (with_images (with_verity (without_verity m) h sa n) l).
    unfold check_external in *. rewrite CM by reflexivity. destruct (check_common (e_rauc e) (with_verity (without_verity m) h sa n)); cbn [negb] in *; [| discriminate].
    change (mf_format (with_images (with_verity (without_verity m) h sa n) l)) with (mf_format m). change (mf_format (with_verity (without_verity m) h sa n)) with (mf_format m) in E. rewrite PL in *.
    change (mf_crypt_key (with_images (with_verity (without_verity m) h sa n) l)) with (mf_crypt_key (with_verity (without_verity m) h sa n)).
    destruct (_ && negb (hex32 (mf_crypt_key _))); [discriminate |].
    change (mf_verity_hash (with_images (with_verity (without_verity m) h sa n) l)) with (Some h). change (mf_verity_salt (with_images (with_verity (without_verity m) h sa n) l)) with (Some sa).
    change (mf_verity_size (with_images (with_verity (without_verity m) h sa n) l)) with n.
    rewrite V1, V2, (proj2 (N.eqb_neq _ _) V3), (proj2 (N.eqb_eq _ _) V4). cbn [andb negb]. unfold bind.
    change (mf_images (with_images (with_verity (without_verity m) h sa n) l)) with l.
    destruct (check_bundled (mf_images (with_verity (without_verity m) h sa n))) as [y | |] eqn:CB.
    2,3: exfalso; revert E; match goal with |- (if ?c then _ else _) = _ -> _ => destruct c; discriminate end.
    destruct (reindexed_check _ _ _ _ FR CB NS) as (r' & ->). eexists. reflexivity.
Qed.

Lemma reindexed_slash : forall ig l l', Forall2 (reindexed ig) l l' -> (forall i f, In i l -> im_filename i = Some f -> has_char "/" f = false) ->
  forall i f, In i l' -> im_filename i = Some f -> has_char "/" f = false.
Proof.
  intros ig l l' F. induction F as [| i i' l l' R F IH]; intros H j f J E; [destruct J |]. destruct J as [<- | J].
  - destruct R as (_ & _ & _ & _ & _ & _ & _ & _ & _ & _ & _ & _ & RF). assert (H0 := H i). destruct (im_filename i) as [g |]; [| congruence].
    assert (G := H0 g (or_introl eq_refl) eq_refl). destruct RF as [[_ X] | (_ & x & IX & X)]; rewrite X in E; injection E as <-; [assumption |].
    apply index_name_for in IX. subst x. unfold has_char in *. unfold index_name. rewrite all_chars_app. apply negb_false_iff in G. rewrite G. destruct (is_archive g); reflexivity.
  - eapply IH; try eassumption. intros; eapply H; [right |]; eassumption.
Qed.

(** when no call fails, each file of the input's images is used by one image and its index does not
    collide with another name, the conversion succeeds *)
Lemma c63_completes_ok : forall e o b s n kf m0,
  (forall k, a_ok (e_ans e k) = true) ->
  (forall k, hex32 (Some (a_s1 (e_ans e k))) = true /\ hex32 (Some (a_s2 (e_ans e k))) = true
             /\ (a_n (e_ans e k) <> 0)%N /\ (a_n (e_ans e k) mod 4096 = 0)%N) ->
  (forall j k, j < k -> k < List.length (s_log s) + 5 + 3 * List.length (mf_images m0) -> a_s1 (e_ans e j) <> a_s1 (e_ans e k)) ->
  (forall k, assoc ("rauc-casync-" ++ a_s1 (e_ans e k)) (s_root s) = None /\ assoc ("arch-" ++ a_s1 (e_ans e k)) (s_root s) = None)%string ->
  s_out s = None -> o_args o <> Some None ->
  assoc "manifest.raucm" b = Some (Reg n) -> e_parse e (s_cont s n) = Some kf -> parse_manifest kf = Ok m0 -> signable e (without_verity m0) ->
  (forall i f, In i (mf_images m0) -> im_filename i = Some f -> has_char "/" f = false) ->
  (forall i f x, In i (mf_images m0) -> replaced (o_ignore o) i f x -> (exists k, assoc f b = Some (Reg k)) /\ forall q, assoc x b <> Some (Dir q)) ->
  (forall i f x j g y, In i (mf_images m0) -> In j (mf_images m0) -> replaced (o_ignore o) i f x -> replaced (o_ignore o) j g y -> f <> y) ->
  (forall l1 i l2 j l3 f x, mf_images m0 = l1 ++ i :: l2 ++ j :: l3 -> replaced (o_ignore o) i f x -> ~ replaced (o_ignore o) j f x) ->
  fst (create_casync e o b s) = Ret true false.
Proof.
  intros e o b s n kf m0 W V D TN O AO MB EP PM SG NS IM NX ND. unfold create_casync. rewrite O, ask_ok_live by assumption. set (s0 := lgd KPayload s).
  unfold convert_bundle. rewrite tmp_live; [| assumption | apply TN]. set (t := ("rauc-casync-" ++ a_s1 (e_ans e (List.length (s_log s0))))%string).
  set (s1 := put [t] (Some (Dir [])) (lgd (KTmp "rauc-casync-") s0)). assert (PT : has_prefix "rauc-casync-" t = true) by reflexivity.
  assert (FR1 : forall k, assoc ("arch-" ++ a_s1 (e_ans e k))%string (s_root s1) = None).
  { intro k. unfold s1, put, set_root, s0, lgd. cbn [s_root tput]. rewrite assoc_set_neq; [apply TN |]. apply not_eq_sym, prefix_neq; [assumption | reflexivity]. }
  assert (X : exists m s2, convert_content e o b t s1 = (Some m, s2)).
  { unfold convert_content. unfold extract, mbind at 1 2 3, ask. rewrite ask_ok_live by assumption. rewrite W. cbn [modify].
    match goal with |- context [put [t; "content"] (Some (Dir b)) ?z] => set (s2 := put [t; "content"] (Some (Dir b)) z) end.
    assert (TG : tget (s_root s2) [t; "content"] = Some (Dir b)).
    { unfold s2, s1, put, set_root, lgd. cbn [s_root tput]. rewrite assoc_set_eq. cbn [tget]. rewrite assoc_set_eq. cbn [tget]. rewrite assoc_set_eq. reflexivity. }
    assert (C2 : s_cont s2 = s_cont s) by reflexivity.
    assert (FR2 : forall k, assoc ("arch-" ++ a_s1 (e_ans e k))%string (s_root s2) = None).
    { intro k. assert (Q := fits_put t ["content"] (Some (Dir b)) s1 ("arch-" ++ a_s1 (e_ans e k))%string). destruct Q as [Q | [Q _]]; [apply prefix_neq; [assumption | reflexivity] | |].
      - change (s_root s2) with (s_root (put [t; "content"] (Some (Dir b)) s1)). rewrite Q. apply FR1.
      - rewrite FR1 in Q. change (s_root s2) with (s_root (put [t; "content"] (Some (Dir b)) s1)).
        unfold put, set_root. cbn [s_root tput]. unfold s1 at 1. unfold put, set_root at 1, lgd. cbn [s_root tput]. rewrite assoc_set_eq, assoc_set_neq; [apply FR1 |]. apply not_eq_sym, prefix_neq; [assumption | reflexivity]. }
    unfold load_inner, mbind at 1 2 3, get, ask. rewrite TG. unfold source, MF. rewrite MB, W. cbn [guard]. unfold mbind at 1, ret at 1. rewrite C2, EP, PM. cbv zeta.
    unfold ret at 1. cbv beta iota zeta. change "manifest.raucm" with MF. match goal with |- context [mbind (each_image _ _) _ ?z] => set (s3 := z) end.
    assert (CD3 : cdir t s3 = Some b) by (unfold cdir; change (s_root s3) with (s_root s2); rewrite TG; reflexivity).
    destruct (each_live e o t _ (mf_images (without_verity m0)) s3 b W D AO PT CD3) as (l & s4 & EA).
    - intros k _ _. apply FR2.
    - cbn. lia.
    - intros i f I TI. assert (R : replaced (o_ignore o) i f (index_name f)) by (apply target_iff; auto). destruct (IM _ _ _ I R). split; [| auto].
      destruct R as (E & _). eapply NS; eassumption.
    - intros i f j g I J TI TJ. apply (NX i f (index_name f) j g (index_name g) I J); apply target_iff; auto.
    - intros l1 i l2 j l3 f E TI TJ. apply (ND l1 i l2 j l3 f (index_name f) E); apply target_iff; auto.
    - unfold mbind at 1. rewrite EA. destruct (each_loop e o t _ _ _ _ _ PT CD3 EA) as (d & LP). assert (CD4 := lp_dir _ _ _ _ _ _ _ _ _ LP).
      assert (NM : forall g, index_name g <> MF).
      { intros g E. apply (f_equal (fun x => has_prefix "mc" (string_of_list_ascii (rev (list_ascii_of_string x))))) in E. unfold index_name in E.
        assert (Q : forall a b, list_ascii_of_string (a ++ b)%string = (list_ascii_of_string a ++ list_ascii_of_string b)%list) by (induction a as [| c a IH]; intro; cbn; [reflexivity | rewrite IH; reflexivity]).
        rewrite Q, rev_app_distr in E. destruct (is_archive g); discriminate E. }
      assert (MD : forall q, assoc MF d <> Some (Dir q)).
      { intro q. destruct (in_dec (fun a b => option_eq_dec_s a b) (Some MF) (map (target o) (mf_images m0))) as [I | NI].
        - apply in_map_iff in I as (j & Tj & J). destruct (lp_gone _ _ _ _ _ _ _ _ _ LP j MF J Tj eq_refl) as [G | (a & c & _ & BAD)]; [intros; apply not_eq_sym, NM | | rewrite W in BAD; discriminate].
          rewrite G. discriminate.
        - rewrite (lp_other _ _ _ _ _ _ _ _ _ LP); [unfold MF; rewrite MB; discriminate |]. intros j g J Tj. split; [| apply not_eq_sym, NM].
          intro; subst g. apply NI, in_map_iff. eauto. }
      assert (O4 : s_out s4 = None) by (rewrite (lp_out _ _ _ _ _ _ _ _ _ LP); exact O).
      unfold set_contents, mbind at 1 2, get.
      assert (SC : (match tget (s_root s4) [t; "content"; MF] with
        | Some (Dir _) => fail
        | _ => ask_ok e (KWrite [t; "content"; MF]) ;; modify (fun s => mkSt (tput (s_root s) [t; "content"; MF] (Some (Reg (s_next s))))
                               (fun i => if Nat.eqb i (s_next s) then CText (prepare_manifest (with_images (without_verity m0) l)) else s_cont s i)
                               (S (s_next s)) (s_out s) (s_fake s) (s_log s)) end) s4
        = (ask_ok e (KWrite [t; "content"; MF]) ;; modify (fun s => mkSt (tput (s_root s) [t; "content"; MF] (Some (Reg (s_next s))))
                               (fun i => if Nat.eqb i (s_next s) then CText (prepare_manifest (with_images (without_verity m0) l)) else s_cont s i)
                               (S (s_next s)) (s_out s) (s_fake s) (s_log s))) s4).
      { assert (Q : forall q, tget (s_root s4) [t; "content"; MF] <> Some (Dir q)).
        { intro q. unfold cdir in CD4. cbn [tget] in *. destruct (assoc t (s_root s4)) as [[| d1 | |] |]; try discriminate. destruct (assoc "content" d1) as [[| d2 | |] |]; try discriminate.
          injection CD4 as ->. specialize (MD q). destruct (assoc MF d) as [[| | |] |]; congruence. }
        destruct (tget (s_root s4) [t; "content"; MF]) as [[| q | |] |]; try reflexivity. destruct (Q q eq_refl). }
      rewrite SC. unfold mbind at 1. rewrite ask_ok_live by assumption. cbn [modify].
      unfold mksquashfs, mbind, get, ask. cbn [s_out lgd]. rewrite O4, W.
      assert (CDN : cdir t (put [t; "content"; MF] (Some (Reg (s_next s4))) s4) = Some (assoc_set MF (Reg (s_next s4)) d)) by (apply (cdir_put t s4 MF (Some _)); assumption).
      unfold cdir, put, set_root in CDN. cbn [s_root] in CDN.
      match goal with |- context [match ?q with Some _ => _ | None => _ end] => change q with (tget (tput (s_root s4) [t; "content"; MF] (Some (Reg (s_next s4)))) [t; "content"]) end.
      destruct (tget (tput (s_root s4) [t; "content"; MF] (Some (Reg (s_next s4)))) [t; "content"]) as [[| es | |] |]; try discriminate.
      eexists _, _. reflexivity. }
  destruct X as (m & s2 & CC). rewrite CC. apply convert_content_inv in CC as (m1 & l & y1 & y2 & d & d' & -> & CY & _ & _ & _ & _ & MP & _ & EA & LP & _ & _ & OS & _); [| assumption].
  destruct (MP n MB) as (kf2 & EP2 & PM2). change (s_cont s1) with (s_cont s) in EP2. rewrite EP in EP2. injection EP2 as <-. rewrite PM in PM2. apply Ok_inj in PM2. subst m1.
  assert (FI := lp_imgs _ _ _ _ _ _ _ _ _ LP).
  destruct (sign_live e m0 l s2 _ W V SG (o_ignore o) FI (reindexed_slash _ _ _ FI NS) OS) as (s3 & ->). reflexivity.
Qed.
