(** Proofs for C63. *)
From Verif Require Import Base BaseLemmas KeyFile KeyFileLemmas Image Handlers HandlersSpec HandlersProofs Manifest BundleCreate BundleCreateSpec BundleCreateLink BundleCreateFrame
  BundleCreateProofs BundleCreateRun BundleCreateOut BundleCreateDone BundleCreateMore ShellWords CasyncConvert CasyncConvertSpec.

Lemma is_archive_iff : forall f, is_archive f = true <-> archive_file f.
Proof.
  intro f. unfold is_archive, archive_file. rewrite orb_true_iff.
  rewrite (glob_contains ".tar" f eq_refl), (glob_suffix ".catar" f eq_refl). unfold contains. tauto.
Qed.
Lemma index_name_for : forall f x, index_for f x <-> x = index_name f.
Proof.
  intros f x. unfold index_for, index_name. rewrite <- is_archive_iff. destruct (is_archive f); intuition congruence.
Qed.

(** ** signing *)
Lemma bundled_settled : forall l l', check_bundled l = Ok l' ->
  Forall2 settled l l' /\ forall i f, In i l -> im_filename i = Some f -> has_char "/" f = false /\ im_digest i <> None.
Proof.
  induction l as [| i r IH]; intros l' E; cbn [check_bundled] in E; [apply Ok_inj in E; subst; split; [constructor | intros i f []] |].
  unfold bind in E. destruct (check_bundled_image i) as [i' | |] eqn:CI; try discriminate.
  destruct (check_bundled r) as [r' | |] eqn:CR; try discriminate. apply Ok_inj in E. subst l'.
  destruct (IH r' eq_refl) as [F G]. unfold check_bundled_image in CI.
  assert (X : settled i i' /\ forall f, im_filename i = Some f -> has_char "/" f = false /\ im_digest i <> None).
  { destruct (im_filename i) as [f |] eqn:FN; [| apply Ok_inj in CI; subst; split; [left; reflexivity | discriminate]].
    destruct (has_char "/" f) eqn:SL; [discriminate |]. destruct (im_digest i) as [dg |] eqn:DG; [| discriminate]. destruct (negb _); [discriminate |].
    split; [| intros f' E; injection E as <-; split; [assumption | discriminate]].
    destruct (im_size i <? 0)%Z eqn:Z0; cbn [bind] in CI.
    - destruct (im_install i) eqn:INS; [| discriminate]. cbn [bind] in CI. apply Z.ltb_lt in Z0. right.
      destruct (im_convert i) eqn:CV; [apply Ok_inj in CI; subst i' | destruct (_ && _); [apply Ok_inj in CI; subst i' | discriminate]];
        cbn; repeat split; auto; congruence.
    - left. destruct (im_convert i); [apply Ok_inj in CI; congruence |]. destruct (_ && _); [apply Ok_inj in CI; congruence | discriminate]. }
  destruct X as [X1 X2]. split; [constructor; assumption |]. intros j f [<- | I] FN; [auto | eauto].
Qed.

Definition checked (rauc : string) (m : manifest) : res manifest :=
  if bformat_eqb (mf_format m) F_PLAIN then check_internal rauc m else check_external rauc m.
Lemma checked_inv : forall rauc m m', checked rauc m = Ok m' -> exists l, check_bundled (mf_images m) = Ok l /\ m' = with_images m l
  /\ (mf_format m = F_CRYPT -> mf_crypt_key m <> None).
Proof.
  intros rauc m m' E. unfold checked in E.
  destruct (bformat_eqb (mf_format m) F_PLAIN) eqn:P; [unfold check_internal in E | unfold check_external in E];
    rewrite P in E; cbn [negb] in E; unfold bind in E;
    repeat match type of E with
           | (if ?c then Err else _) = Ok _ => destruct c eqn:?; [discriminate |]
           | match check_bundled ?q with _ => _ end = Ok _ => destruct (check_bundled q) as [l | |]; try discriminate
           end.
  - destruct (mf_crypt_key m), (mf_verity_hash m), (mf_verity_salt m); try discriminate.
    destruct (mf_verity_size m =? 0)%N; [| discriminate]. apply Ok_inj in E. exists l. split; [reflexivity |]. split; [congruence |].
    intro F. rewrite F in P. discriminate.
  - apply Ok_inj in E. exists l. split; [reflexivity |]. split; [congruence |]. intros F K. rewrite F, K in *. discriminate.
Qed.

Lemma sign_bundle_inv : forall e m s u s' d c, sign_bundle e m s = (FVal u, s') -> s_out s = Some (OSquash d c false) ->
  s_root s' = s_root s /\ exists o ms, s_out s' = Some o /\ sealed (mf_format m) d c ms o /\ same_header m ms
    /\ mf_crypt_key ms = mf_crypt_key m /\ Forall2 settled (mf_images m) (mf_images ms)
    /\ (forall i f, In i (mf_images m) -> im_filename i = Some f -> has_char "/" f = false /\ im_digest i <> None)
    /\ (mf_format m = F_CRYPT -> mf_crypt_key m <> None).
Proof.
  intros e m s u s' d c H O. unfold sign_bundle in H.
  assert (SG : forall m1 t t', lift (sign e m1) t = (FVal u, t') -> exists l, check_bundled (mf_images m1) = Ok l
     /\ s_out t' = option_map (fun o => OSigned o (with_images m1 l)) (s_out t) /\ s_root t' = s_root t
     /\ (mf_format m1 = F_CRYPT -> mf_crypt_key m1 <> None)).
  { intros m1 t t' E. apply lift_val in E. unfold sign in E.
    match type of E with (match ?X with _ => _ end) _ = _ => change X with (checked (e_rauc e) m1) in E end.
    destruct (checked (e_rauc e) m1) as [m' | |] eqn:CK; try discriminate. apply checked_inv in CK as (l & CB & -> & KC).
    apply mbind_some in E as (a & t1 & R & E). injection E as _ <-. apply rewrite_inv in R as (R1 & R2 & _). exists l. auto. }
  destruct (bformat_eqb (mf_format m) F_PLAIN) eqn:P.
  - apply SG in H as (l & CB & O' & R & KC). rewrite O in O'. cbn [option_map] in O'. split; [assumption |].
    destruct (bundled_settled _ _ CB) as [FS SL]. exists (OSigned (OSquash d c false) (with_images m l)), (with_images m l).
    split; [assumption |]. split; [destruct (mf_format m); try discriminate; reflexivity |].
    split; [repeat split |]. split; [reflexivity |]. split; [exact FS |]. split; assumption.
  - destruct (create_verity e m s) as [[m1 | |] s1] eqn:CV; try discriminate. unfold create_verity in CV.
    destruct (lift (ask_ok e KVerityOpen) s) as [[v | |] s0] eqn:A; try discriminate. apply lift_val in A.
    assert (Q := q_ask_ok e KVerityOpen s). rewrite A in Q. cbn in Q. destruct Q as (Q1 & _ & _ & Q4 & _).
    destruct (mf_verity_salt m); [discriminate |]. destruct (mf_verity_hash m); [discriminate |]. destruct (mf_verity_size m =? 0)%N; [| discriminate].
    apply lift_val in CV. apply mbind_some in CV as (a & t1 & R & E). injection E as <- <-. apply rewrite_inv in R as (R1 & R2 & _).
    apply SG in H as (l & CB & O' & R & KC). rewrite R1, Q4, O in O'. cbn [option_map] in O'. split; [congruence |].
    destruct (bundled_settled _ _ CB) as [FS SL].
    exists (OSigned (OVerity (OSquash d c false) (a_s1 a) (a_s2 a) (a_n a)) (with_images (with_verity m (a_s1 a) (a_s2 a) (a_n a)) l)), (with_images (with_verity m (a_s1 a) (a_s2 a) (a_n a)) l).
    split; [assumption |]. split.
    { unfold sealed. destruct (mf_format m); try discriminate; exists (a_s1 a), (a_s2 a), (a_n a); repeat split. }
    split; [repeat split |]. split; [reflexivity |]. split; [exact FS |]. split; assumption.
Qed.

(** ** the steps of the conversion *)
Definition cdir (t : string) (s : st) : option dir := match tget (s_root s) [t; "content"] with Some (Dir d) => Some d | _ => None end.

Lemma cdir_put : forall t s n x d, cdir t s = Some d ->
  cdir t (put [t; "content"; n] x s) = Some (match x with Some y => assoc_set n y d | None => assoc_remove n d end).
Proof.
  intros t s n x d H. unfold cdir in *. unfold put, set_root. cbn [s_root tget tput] in *.
  destruct (assoc t (s_root s)) as [[| es | |] |] eqn:A; try discriminate. rewrite assoc_set_eq. cbn [tget].
  destruct (assoc "content" es) as [[| c | |] |] eqn:B; try discriminate. injection H as ->. rewrite assoc_set_eq. reflexivity.
Qed.
Lemma cdir_other : forall t s n x d, cdir t s = Some d -> n <> t -> cdir t (put [n] x s) = Some d.
Proof.
  intros t s n x d H N. unfold cdir in *. unfold put, set_root. cbn [s_root tget tput] in *.
  destruct x; [rewrite assoc_set_neq by congruence | rewrite assoc_remove_neq by congruence]; assumption.
Qed.
Lemma cdir_root : forall t s s', s_root s' = s_root s -> cdir t s' = cdir t s.
Proof. intros t s s' E. unfold cdir. rewrite E. reflexivity. Qed.

Lemma ask_inv : forall e k s a s', ask e k s = (Some a, s') -> a = e_ans e (List.length (s_log s))
  /\ s' = mkSt (s_root s) (s_cont s) (s_next s) (s_out s) (s_fake s) (k :: s_log s).
Proof. intros e k s a s' H. injection H as <- <-. auto. Qed.
Lemma ask_ok_inv : forall e k s u s', ask_ok e k s = (Some u, s') ->
  s' = mkSt (s_root s) (s_cont s) (s_next s) (s_out s) (s_fake s) (k :: s_log s).
Proof. intros e k s u s' H. apply mbind_some in H as (a & s1 & A & H). apply ask_inv in A as [_ ->]. apply guard_some in H as [_ ->]. reflexivity. Qed.

Lemma make_tmp_inv : forall e p s n s', make_tmp e p s = (Some n, s') -> has_prefix p n = true /\ assoc n (s_root s) = None
  /\ s_root s' = assoc_set n (Dir []) (s_root s) /\ s_cont s' = s_cont s /\ s_next s' = s_next s /\ s_out s' = s_out s
  /\ s_log s' = KTmp p :: s_log s.
Proof.
  intros e p s n s' H. apply mbind_some in H as (a & s1 & A & H). apply ask_inv in A as [_ ->]. cbv zeta in H.
  apply mbind_some in H as (x & y & G & H). injection G as <- <-. cbn [s_root] in H.
  destruct (assoc (p ++ a_s1 a)%string (s_root s)) eqn:F; [discriminate |].
  apply mbind_some in H as ([] & y & G & H). apply guard_some in G as [_ ->]. apply mbind_some in H as ([] & y & G & H). injection G as <-.
  injection H as <- <-. split; [| repeat split; auto]. clear. induction p as [| c p IH]; [reflexivity |]. cbn. rewrite Ascii.eqb_refl. exact IH.
Qed.

Lemma parse_args_inv : forall o s l s', parse_args o s = (Some l, s') -> s' = s /\ (o_args o = Some (Some l) \/ (o_args o = None /\ l = [])).
Proof. intros o s l s' H. unfold parse_args in H. destruct (o_args o) as [[x |] |]; try discriminate; injection H as <- <-; auto. Qed.

(** a state reached by the tool: index [k] for [f] *)
Definition indexed (t f idx : string) (s s' : st) : Prop :=
  exists d, cdir t s = Some d /\ exists c, assoc f d <> None /\ (forall n, assoc f d = Some (Reg n) -> c = s_cont s n)
    /\ cdir t s' = Some (assoc_set idx (Reg (s_next s)) d)
    /\ s_cont s' (s_next s) = CCasync (is_archive f) c
    /\ (forall i, i < s_next s -> s_cont s' i = s_cont s i) /\ s_next s' = S (s_next s).

Lemma run_tool_inv : forall e argv t f idx s u s', run_tool e argv t f idx s = (Some u, s') ->
  s_out s' = s_out s /\ s_log s' = KTool argv :: s_log s /\
  if has_char "/" f then s_root s' = s_root s /\ s_cont s' = s_cont s /\ s_next s' = s_next s
  else indexed t f idx s s'.
Proof.
  intros e argv t f idx s [] s' H. apply mbind_some in H as (a & s1 & A & H). apply ask_inv in A as [_ ->].
  destruct (has_char "/" f). { apply guard_some in H as [_ ->]. repeat split. }
  apply mbind_some in H as (x & y & G & H). injection G as <- <-. cbn [s_root] in H.
  destruct (tget (s_root s) [t; "content"]) as [[| es | |] |] eqn:TG; try discriminate.
  destruct (a_ok a).
  - unfold source in H. cbn [s_cont] in H.
    assert (IX : forall c, assoc f es <> None -> (forall n, assoc f es = Some (Reg n) -> c = s_cont s n) ->
       modify (fun s => mkSt (tput (s_root s) [t; "content"; idx] (Some (Reg (s_next s))))
                                (fun i => if Nat.eqb i (s_next s) then CCasync (is_archive f) c else s_cont s i)
                                (S (s_next s)) (s_out s) (s_fake s) (s_log s)) (mkSt (s_root s) (s_cont s) (s_next s) (s_out s) (s_fake s) (KTool argv :: s_log s)) = (Some tt, s') ->
       s_out s' = s_out s /\ s_log s' = KTool argv :: s_log s /\ indexed t f idx s s').
    { intros c NN HC E. injection E as <-. split; [reflexivity |]. split; [reflexivity |]. exists es.
      assert (CD : cdir t s = Some es) by (unfold cdir; rewrite TG; reflexivity). split; [assumption |]. exists c. split; [assumption |]. split; [assumption |].
      split; [exact (cdir_put t s idx (Some (Reg (s_next s))) es CD) |]. cbn. rewrite Nat.eqb_refl. split; [reflexivity |].
      split; [| reflexivity]. intros i L. destruct (Nat.eqb_spec i (s_next s)); [lia | reflexivity]. }
    destruct (assoc f es) as [[n | d | l |] |] eqn:F.
    + destruct (assoc idx es) as [[| | |] |]; try discriminate; (apply (IX (s_cont s n)); [discriminate | intros m E; congruence | exact H]).
    + destruct (assoc idx es) as [[| | |] |]; try discriminate; (apply mbind_some in H as (? & ? & _ & H); discriminate).
    + destruct (assoc idx es) as [[| | |] |]; try discriminate; (eapply IX; [discriminate | intros m E; discriminate | exact H]).
    + destruct (assoc idx es) as [[| | |] |]; try discriminate; (apply mbind_some in H as (? & ? & _ & H); discriminate).
    + destruct (assoc idx es) as [[| | |] |]; try discriminate; (apply mbind_some in H as (? & ? & _ & H); discriminate).
  - destruct (assoc idx es) as [[| | |] |]; try discriminate; (apply mbind_some in H as (? & ? & _ & H); discriminate).
Qed.

Lemma prefix_neq : forall a b, has_prefix "rauc-casync-" a = true -> has_prefix "arch-" b = true -> b <> a.
Proof.
  intros a b H K E. subst b. destruct a as [| x a]; [discriminate |]. cbn [has_prefix] in H, K.
  destruct (Ascii.eqb "r" x) eqn:E1; [| discriminate]. apply Ascii.eqb_eq in E1. subst x. discriminate.
Qed.

Lemma indexed_from : forall t f idx s0 s s', cdir t s = cdir t s0 -> s_cont s = s_cont s0 -> s_next s = s_next s0 ->
  indexed t f idx s s' -> indexed t f idx s0 s'.
Proof.
  intros t f idx s0 s s' C K N (d & D & c & H). exists d. rewrite C in D. split; [assumption |]. exists c. rewrite K, N in H. exact H.
Qed.

(** arguments of the programs *)
Definition given_args (o : copt) (l : list string) : Prop := o_args o = Some (Some l) \/ (o_args o = None /\ l = []).

Definition step_ok (t f idx : string) (s s' : st) : Prop :=
  s_out s' = s_out s /\
  if has_char "/" f then cdir t s' = cdir t s /\ s_cont s' = s_cont s /\ s_next s' = s_next s else indexed t f idx s s'.

Lemma make_blob_inv : forall e o t f idx s u s', make_blob e o t f idx s = (Some u, s') -> step_ok t f idx s s'.
Proof.
  intros e o t f idx s u s' H. apply mbind_some in H as ([] & s1 & A & H). apply mbind_some in H as (l & s2 & P & H).
  apply parse_args_inv in P as [-> P]. apply run_tool_inv in H as (O & L & H).
  assert (Q : s_root s1 = s_root s /\ s_cont s1 = s_cont s /\ s_next s1 = s_next s /\ s_out s1 = s_out s).
  { destruct (o_desync o); [apply ask_ok_inv in A; subst s1; repeat split | injection A as <-; repeat split]. }
  destruct Q as (Q1 & Q2 & Q3 & Q4). split; [congruence |]. destruct (has_char "/" f).
  - destruct H as (R & C & N). rewrite (cdir_root t s1 s' R), (cdir_root t s s1 Q1). repeat split; congruence.
  - eapply indexed_from; [| | | exact H]; auto. apply cdir_root. assumption.
Qed.
Lemma make_arch_inv : forall e o t f idx s u s', has_prefix "rauc-casync-" t = true -> (exists d, cdir t s = Some d) ->
  make_arch e o t f idx s = (Some u, s') -> step_ok t f idx s s'.
Proof.
  intros e o t f idx s u s' PT [d CD] H. unfold make_arch in H. destruct (o_desync o); [eapply make_blob_inv; eassumption |].
  apply mbind_some in H as (n & s1 & A & H). apply mbind_some in H as (l & s2 & P & H). apply parse_args_inv in P as [-> P].
  apply run_tool_inv in H as (O & L & H). apply make_tmp_inv in A as (PA & F & R & C & N & O1 & _).
  assert (CT : cdir t s1 = cdir t s).
  { rewrite CD. rewrite (cdir_root t (put [n] (Some (Dir [])) s)) by exact R. apply cdir_other; [assumption | eapply prefix_neq; eassumption]. }
  split; [congruence |]. destruct (has_char "/" f).
  - destruct H as (R' & C' & N'). rewrite (cdir_root t s1 s' R'). repeat split; congruence.
  - eapply indexed_from; [| | | exact H]; auto.
Qed.

(** one image *)
Definition target (o : copt) (i : image) : option string :=
  match im_filename i with
  | Some f => if existsb (String.eqb (im_class i)) (o_ignore o) then None else Some f
  | None => None
  end.
Lemma target_iff : forall o i f x, replaced (o_ignore o) i f x <-> target o i = Some f /\ x = index_name f.
Proof.
  intros o i f x. unfold replaced, target. rewrite index_name_for.
  assert (E : existsb (String.eqb (im_class i)) (o_ignore o) = true <-> In (im_class i) (o_ignore o)).
  { rewrite existsb_exists. split; [intros (y & I & Y); apply String.eqb_eq in Y; subst; assumption | intro I; exists (im_class i); split; [assumption | apply String.eqb_refl]]. }
  destruct (im_filename i) as [g |]; [| intuition discriminate].
  destruct (existsb _ _).
  - split; [intros (_ & N & _); exfalso; apply N, E; reflexivity | intros [? _]; discriminate].
  - split; [intros (F & _ & X); auto | intros (F & X); repeat split; auto; intro I; apply E in I; discriminate].
Qed.

Lemma convert_one_inv : forall e o t i s i' s' d, has_prefix "rauc-casync-" t = true -> cdir t s = Some d ->
  convert_one e o t i s = (Some i', s') ->
  match target o i with
  | None => i' = i /\ s' = s
  | Some f =>
      i' = with_filename i (index_name f) /\ s_out s' = s_out s /\ s_next s <= s_next s' /\ (forall k, k < s_next s -> s_cont s' k = s_cont s k)
      /\ if has_char "/" f then cdir t s' = Some d
         else exists c, assoc f d <> None /\ (forall n, assoc f d = Some (Reg n) -> c = s_cont s n)
           /\ s_cont s' (s_next s) = CCasync (is_archive f) c /\ s_next s < s_next s'
           /\ (cdir t s' = Some (assoc_remove f (assoc_set (index_name f) (Reg (s_next s)) d))
               \/ (cdir t s' = Some (assoc_set (index_name f) (Reg (s_next s)) d) /\
                   exists l, s_log s' = KRemove (content_path o t f) :: l /\ a_ok (e_ans e (List.length l)) = false))
  end.
Proof.
  intros e o t i s i' s' d PT CD H. unfold convert_one in H. unfold target.
  destruct (im_filename i) as [f |]; [| injection H as <- <-; auto].
  destruct (existsb _ _); [injection H as <- <-; auto |].
  apply mbind_some in H as ([] & s1 & A & H).
  assert (ST : step_ok t f (index_name f) s s1) by (destruct (is_archive f); [eapply make_arch_inv; eauto | eapply make_blob_inv; eauto]).
  clear A. destruct ST as [O1 ST].
  apply mbind_some in H as (a & s2 & A & H). apply ask_inv in A as [EA ->].
  apply mbind_some in H as ([] & s3 & R & H). injection H as <- <-. split; [reflexivity |].
  destruct (has_char "/" f).
  - rewrite andb_false_r in R. injection R as <-. destruct ST as (C & K & N). cbn [s_out s_next s_cont]. rewrite N, K.
    split; [assumption |]. split; [lia |]. split; [reflexivity |]. unfold cdir in *. cbn [s_root]. rewrite C. assumption.
  - destruct ST as (d' & CD' & c & NN & HC & C1 & K1 & K2 & N1). rewrite CD in CD'. injection CD' as <-.
    cbn [negb] in R. rewrite andb_true_r in R.
    assert (Q : s_out s3 = s_out s1 /\ s_next s3 = s_next s1 /\ s_cont s3 = s_cont s1) by (destruct (a_ok a); injection R as <-; repeat split).
    destruct Q as (Q1 & Q2 & Q3). rewrite Q1, Q2, Q3. split; [assumption |]. split; [lia |]. split; [assumption |].
    exists c. split; [assumption |]. split; [assumption |]. split; [assumption |]. split; [lia |].
    destruct (a_ok a) eqn:OK; injection R as <-.
    + left. match goal with |- cdir t (put _ None ?S) = _ => assert (X := cdir_put t S f None (assoc_set (index_name f) (Reg (s_next s)) d) C1) end. exact X.
    + right. split; [exact C1 |]. eexists. split; [reflexivity |]. congruence.
Qed.

Lemma idx_neq_f : forall f, index_name f <> f.
Proof. intros f E. apply (f_equal String.length) in E. unfold index_name in E. rewrite length_app_s in E. destruct (is_archive f); cbn in E; lia. Qed.

Lemma with_filename_reindexed : forall o i f, target o i = Some f -> reindexed (o_ignore o) i (with_filename i (index_name f)).
Proof.
  intros o i f H. assert (R := proj2 (target_iff o i f (index_name f)) (conj H eq_refl)). destruct R as (F & NI & IX).
  unfold reindexed. rewrite F. cbn. repeat (split; [reflexivity |]). right. eauto.
Qed.
Lemma reindexed_same : forall o i, target o i = None -> reindexed (o_ignore o) i i.
Proof.
  intros o i H. unfold reindexed. repeat (split; [reflexivity |]). unfold target in H. destruct (im_filename i) as [f |]; [| reflexivity].
  left. split; [| reflexivity]. destruct (existsb _ _) eqn:E; [| discriminate]. apply existsb_exists in E as (y & I & Y). apply String.eqb_eq in Y. subst. assumption.
Qed.

(** ** all images *)
Record loop (e : env) (o : copt) (t : string) (l l' : list image) (s s' : st) (d d' : dir) : Prop := mkLoop {
  lp_dir : cdir t s' = Some d';
  lp_out : s_out s' = s_out s;
  lp_next : s_next s <= s_next s';
  lp_cont : forall k, k < s_next s -> s_cont s' k = s_cont s k;
  lp_imgs : Forall2 (reindexed (o_ignore o)) l l';
  (* a name that is neither replaced nor an index *)
  lp_other : forall n, (forall i f, In i l -> target o i = Some f -> n <> f /\ n <> index_name f) -> assoc n d' = assoc n d;
  (* a replaced file must be there *)
  lp_src : forall i f, In i l -> target o i = Some f -> has_char "/" f = false ->
      (forall j g, In j l -> target o j = Some g -> f <> index_name g) -> assoc f d <> None;
  (* a replaced file is gone, or its removal was refused *)
  lp_gone : forall i f, In i l -> target o i = Some f -> has_char "/" f = false ->
      (forall j g, In j l -> target o j = Some g -> f <> index_name g) -> assoc f d' = None \/ refused e s' (content_path o t f);
  (* the index *)
  lp_index : forall i f n, In i l -> target o i = Some f -> has_char "/" f = false -> assoc f d = Some (Reg n) -> n < s_next s ->
      (forall j g, In j l -> target o j = Some g -> f <> index_name g /\ index_name f <> g) ->
      exists k, assoc (index_name f) d' = Some (Reg k) /\ k < s_next s' /\ s_cont s' k = CCasync (is_archive f) (s_cont s n)
}.

Lemma index_inj : forall f g, index_name f = index_name g -> f = g.
Proof.
  assert (G : forall f g a b, String.length a = String.length b -> (f ++ a)%string = (g ++ b)%string -> f = g).
  { induction f as [| x f IH]; intros [| y g] a b L E; auto.
    - apply (f_equal String.length) in E. rewrite !length_app_s in E. cbn in E. lia.
    - apply (f_equal String.length) in E. rewrite !length_app_s in E. cbn in E. lia.
    - injection E as -> E. f_equal. eapply IH; eassumption. }
  intros f g E. unfold index_name in E. apply G in E; [assumption |]. destruct (is_archive f), (is_archive g); reflexivity.
Qed.

Definition grows {A} (m : M A) : Prop := forall s, exists l, s_log (snd (m s)) = l ++ s_log s.
Lemma lg_grows : forall A (m : M A), lg (fun _ => True) m -> grows m.
Proof. intros A m H s. destruct (H s) as (l & E & _). eauto. Qed.

Lemma lg_tool : forall e (P : call -> Prop) argv t f idx, P (KTool argv) -> lg P (run_tool e argv t f idx).
Proof.
  intros e P argv t f idx H. apply lg_bind; [apply lg_ask; assumption | intro a]. destruct (has_char "/" f); [apply lg_guard |].
  apply lg_bind; [apply lg_get | intro s]. destruct (tget (s_root s) [t; "content"]) as [[| es | |] |]; try apply lg_fail.
  assert (X : lg P (modify (put [t; "content"; idx] (a_left a)) ;; @fail unit)) by (apply lg_bind; [apply lg_put | intro; apply lg_fail]).
  destruct (if a_ok a then source es f a s else None) as [c |]; destruct (assoc idx es) as [[| | |] |]; first [apply lg_fail | exact X | apply lg_nolog; reflexivity].
Qed.
