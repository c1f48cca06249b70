(** Proofs for C63: the finished bundle, the directory for temporary files, the commands. *)
From Verif Require Import Base BaseLemmas KeyFile KeyFileLemmas Image Manifest BundleCreate BundleCreateSpec BundleCreateLink BundleCreateFrame
  BundleCreateProofs BundleCreateRun BundleCreateOut BundleCreateDone BundleCreateMore ShellWords CasyncConvert CasyncConvertSpec CasyncConvertProofs CasyncConvertRun CasyncConvertEnd.

Lemma rm_tree_keeps : forall e p s, s_out (snd (rm_tree e p s)) = s_out s /\ s_cont (snd (rm_tree e p s)) = s_cont s /\ s_log (snd (rm_tree e p s)) = KRmTree p :: s_log s.
Proof. intros e p s. unfold rm_tree, mbind, ask. cbn. destruct (a_ok _); cbn; auto. Qed.

(** ** a successful run, step by step *)
Lemma success_inv : forall e o b s s', s_out s = None -> create_casync e o b s = (Ret true false, s') ->
  exists t x1 m x2 x3,
    make_tmp e "rauc-casync-" (mkSt (s_root s) (s_cont s) (s_next s) (s_out s) (s_fake s) (KPayload :: s_log s)) = (Some t, x1)
    /\ has_prefix "rauc-casync-" t = true
    /\ convert_content e o b t x1 = (Some m, x2) /\ sign_bundle e m x2 = (FVal tt, x3) /\ s' = snd (rm_tree e [t] x3).
Proof.
  intros e o b s s' O H. apply casync_inv in H as [(_ & s1 & u & -> & C) | (E & _)]; [| discriminate E | assumption].
  unfold convert_bundle in C. destruct (make_tmp e "rauc-casync-" _) as [[t |] x1] eqn:T; [| discriminate].
  assert (PT := T). apply make_tmp_inv in PT as (PT & _). destruct (convert_content e o b t x1) as [[m |] x2] eqn:CC; [| discriminate].
  destruct (sign_bundle e m x2) as [[[] | |] x3] eqn:SB; try discriminate. injection C as _ <-. exists t, x1, m, x2, x3. auto.
Qed.

Lemma idx_slash : forall f, has_char "/" (index_name f) = false -> has_char "/" f = false.
Proof.
  intros f. unfold index_name, has_char. rewrite all_chars_app. intro H. apply negb_false_iff in H. apply andb_prop in H as [H _]. rewrite H. reflexivity.
Qed.

Lemma Forall2_in : forall A B (R : A -> B -> Prop) l l' x, Forall2 R l l' -> In x l -> exists y, In y l' /\ R x y.
Proof. intros A B R l l' x H. induction H as [| a a1 r r1 R1 F IH]; intro I; [destruct I |]. destruct I as [<- | I]; [exists a1; split; [left; reflexivity | assumption] |]. destruct (IH I) as (z & Z & ?). exists z. split; [right |]; assumption. Qed.

Lemma sign_keeps : forall e m s u s' d c, sign_bundle e m s = (FVal u, s') -> s_out s = Some (OSquash d c false) -> exists lg, s_log s' = lg ++ s_log s.
Proof.
  assert (LR : forall e k f s x s', rewrite_out e k f s = (Some x, s') -> exists l, s_log s' = l ++ s_log s).
  { intros e k f s x s' H. unfold rewrite_out in H. apply mbind_some in H as (a & y & A & H). apply ask_inv in A as [_ ->].
    destruct (a_ok a); [| apply mbind_some in H as (? & ? & _ & H); discriminate].
    repeat (apply mbind_some in H as (? & ? & ? & H)).
    repeat match goal with X : modify _ _ = (Some _, _) |- _ => injection X as X; try subst end.
    match goal with X : get _ = (Some _, _) |- _ => injection X as <- <- end. injection H as _ <-. eexists [_]; reflexivity. }
  intros e m s u s' d c H O. unfold sign_bundle in H.
  assert (LS : forall m1 t t' , lift (sign e m1) t = (FVal u, t') -> exists l, s_log t' = l ++ s_log t).
  { intros m1 t t' E. apply lift_val in E. unfold sign in E. match type of E with (match ?X with _ => _ end) _ = _ => destruct X as [mm | |]; try discriminate end.
    apply mbind_some in E as (a & t1 & R & E). injection E as _ <-. eapply LR; eassumption. }
  destruct (bformat_eqb (mf_format m) F_PLAIN); [eapply LS; eassumption |].
  destruct (create_verity e m s) as [[m1 | |] s1] eqn:CV; try discriminate. apply LS in H as (l & L). unfold create_verity in CV.
  destruct (lift (ask_ok e KVerityOpen) s) as [[[] | |] s0] eqn:A; try discriminate. apply lift_val in A. apply ask_ok_inv in A.
  destruct (mf_verity_salt m); [discriminate |]. destruct (mf_verity_hash m); [discriminate |]. destruct (mf_verity_size m =? 0)%N; [| discriminate].
  apply lift_val in CV. apply mbind_some in CV as (a & t1 & R & E). injection E as _ <-. apply LR in R as (l' & R). exists (l ++ l' ++ [KVerityOpen]).
  rewrite L, R, A. cbn. rewrite <- !app_assoc. reflexivity.
Qed.

(** ** the finished bundle *)
Lemma c63_success_ok : forall e o b s s' n0, s_out s = None -> create_casync e o b s = (Ret true false, s') ->
  assoc "manifest.raucm" b = Some (Reg n0) -> n0 < s_next s ->
  exists kf m0 m1 ms d c out k0 t,
    e_parse e (s_cont s n0) = Some kf /\ parse_manifest kf = Ok m0
    /\ s_out s' = Some out /\ sealed (mf_format m0) d c ms out
    (* the manifest in the bundle, and the one in the signature *)
    /\ assoc "manifest.raucm" d = Some (Reg k0) /\ c k0 = CText (prepare_manifest m1)
    /\ same_header m0 m1 /\ mf_crypt_key m1 = mf_crypt_key m0 /\ Forall2 (reindexed (o_ignore o)) (mf_images m0) (mf_images m1)
    /\ same_header m1 ms /\ mf_crypt_key ms = mf_crypt_key m1 /\ Forall2 settled (mf_images m1) (mf_images ms)
    (* the contents *)
    /\ (forall i f x, In i (mf_images m0) -> replaced (o_ignore o) i f x -> has_char "/" f = false)
    /\ (forall k, k < s_next s -> c k = s_cont s k)
    /\ (forall n, n <> "manifest.raucm" -> (forall i f x, In i (mf_images m0) -> replaced (o_ignore o) i f x -> n <> f /\ n <> x) -> assoc n d = assoc n b)
    /\ (forall i f x, In i (mf_images m0) -> replaced (o_ignore o) i f x -> f <> "manifest.raucm" ->
          (forall j g y, In j (mf_images m0) -> replaced (o_ignore o) j g y -> f <> y) ->
          assoc f d = None \/ refused e s' (o_tmpdir o ++ "/" ++ t ++ "/content/" ++ f))
    /\ (forall i f x n, In i (mf_images m0) -> replaced (o_ignore o) i f x -> assoc f b = Some (Reg n) -> n < s_next s -> x <> "manifest.raucm" ->
          (forall j g y, In j (mf_images m0) -> replaced (o_ignore o) j g y -> f <> y /\ x <> g) ->
          exists k a, assoc x d = Some (Reg k) /\ c k = CCasync a (s_cont s n) /\ (a = true <-> archive_file f))
    /\ (mf_format m0 = F_CRYPT -> mf_crypt_key m0 <> None).
Proof.
  intros e o b s s' n0 O H MB N0. destruct (success_inv _ _ _ _ _ O H) as (t & x1 & m & x2 & x3 & T & PT & CC & SB & ->).
  apply make_tmp_inv in T as (_ & _ & R1 & C1 & N1 & O1 & L1). cbn [s_root s_cont s_next s_out s_log] in *.
  apply convert_content_inv in CC as (m0 & l & y1 & y2 & d & d' & -> & CY & NY & OY & _ & CD & MP & _ & EA & LP & DE & CD' & OS & KT & KC & LG & _); [| assumption].
  destruct (sign_keeps _ _ _ _ _ _ _ SB OS) as (ls & LS).
  eapply sign_bundle_inv in SB as (R3 & out & ms & OO & SE & SH & CK & FS & SL & KR); [| exact OS].
  destruct (rm_tree_keeps e [t] x3) as (Q1 & Q2 & Q3). destruct LP as [P1 P2 P3 P4 P5 P6 P7 P8 P9].
  destruct (MP n0 MB) as (kf & EP & PM). rewrite C1 in EP.
  unfold MF in *. assert (NB : s_next y1 = s_next s) by congruence.
  assert (CB : forall k, s_cont y1 k = s_cont s k) by (intro k; rewrite CY, C1; reflexivity).
  assert (TR : forall i f x, replaced (o_ignore o) i f x <-> target o i = Some f /\ x = index_name f) by (intros; apply target_iff).
  assert (NSL : forall i f x, In i (mf_images m0) -> replaced (o_ignore o) i f x -> has_char "/" f = false).
  { intros i f x I R. assert (RR := R). apply TR in RR as [_ ->]. destruct R as (F & NI & IX).
    destruct (Forall2_in _ _ _ _ _ i P5 I) as (i' & I' & RE). destruct RE as (_ & _ & _ & _ & _ & _ & _ & _ & _ & _ & _ & _ & RE).
    rewrite F in RE. destruct RE as [[X _] | (_ & x & X & F')]; [contradiction |]. apply index_name_for in X. subst x.
    apply idx_slash. apply (SL i' _ I' F'). }
  assert (IM : index_name "manifest.raucm" <> "manifest.raucm") by apply idx_neq_f.
  exists kf, m0, (with_images (without_verity m0) l), ms, d', (s_cont x2), out, (s_next y2), t.
  split; [assumption |]. split; [assumption |]. split; [rewrite Q1; assumption |]. split; [exact SE |].
  split; [rewrite DE; apply assoc_set_eq |]. split; [exact KT |]. split; [repeat split |]. split; [reflexivity |]. split; [exact P5 |].
  split; [assumption |]. split; [exact CK |]. split; [exact FS |]. split; [assumption |].
  split. { intros k Hk. rewrite KC, P4, CB by lia. reflexivity. }
  split. { intros n NM Hn. rewrite DE, assoc_set_neq by congruence. apply P6. intros i f I TG. apply (Hn i f (index_name f) I). apply TR. auto. }
  split.
  { intros i f x I R NM Hx. assert (SLF := NSL i f x I R). apply TR in R as [TG ->].
    assert (X : assoc f d = None \/ refused e y2 (content_path o t f)).
    { apply (P8 i f I TG SLF). intros j g J Tj. apply (Hx j g (index_name g) J). apply TR. auto. }
    destruct X as [X | X]; [left; rewrite DE, assoc_set_neq by congruence; assumption | right].
    destruct LG as [lg LG]. eapply (refused_later e y2 _ _ (KRmTree [t] :: ls ++ lg)); [exact X |].
    rewrite Q3, LS, LG. cbn. rewrite app_assoc. reflexivity. }
  split.
  { intros i f x n I R A B NM Hx. assert (SLF := NSL i f x I R). apply TR in R as [TG ->].
    destruct (P9 i f n I TG SLF A ltac:(lia)) as (k & AK & LK & KK).
    { intros j g J Tj. apply (Hx j g (index_name g) J). apply TR. auto. }
    exists k, (is_archive f). split; [rewrite DE, assoc_set_neq by congruence; assumption |]. split; [rewrite KC, KK, CB by assumption; reflexivity | apply is_archive_iff]. }
  exact KR.
Qed.
