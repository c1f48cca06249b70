(** Proofs for C62: outcomes and the finished bundle. *)
From Verif Require Import Base KeyFile KeyFileLemmas Image Manifest BundleCreate BundleCreateSpec BundleCreateLink BundleCreateFrame
  BundleCreateProofs BundleCreateRun.

Lemma c62_existing_output_ok : forall e s o, s_out s = Some o -> create_bundle e s = (Ret false true, s).
Proof. intros e s o H. unfold create_bundle. rewrite H. reflexivity. Qed.

Lemma create_inv : forall e s r s', s_out s = None -> create_bundle e s = (r, s') ->
  exists k s1, create_body e s = (r, k, s1) /\
    match r, k with
    | Aborted, _ | _, true => s' = s1
    | _, false => (s_out s1 = None /\ s' = s1)
                  \/ (s_out s1 <> None /\ s_log s' = KUnlinkOut :: s_log s1
                      /\ s_out s' = if a_ok (e_ans e (List.length (s_log s1))) then None else s_out s1)
    end.
Proof.
  intros e s r s' O H. unfold create_bundle in H. rewrite O in H.
  destruct (create_body e s) as [[r0 k] s1] eqn:B.
  destruct r0 as [ok err |]; [destruct k |].
  - injection H as <- <-. exists true, s1. split; reflexivity.
  - destruct (s_out s1) as [o |] eqn:O1.
    + cbn in H. injection H as <- <-. exists false, s1. split; [reflexivity |]. right.
      destruct (a_ok _); cbn; (split; [congruence | split; [reflexivity |]]); congruence.
    + injection H as <- <-. exists false, s1. split; [reflexivity |]. left. auto.
  - injection H as <- <-. exists k, s1. split; reflexivity.
Qed.

(** body: what the flags say *)
Lemma body_flags : forall e s r k s1, create_body e s = (r, k, s1) ->
  (k = true <-> r = Ret true false) /\ r <> Ret false false.
Proof.
  intros e s r k s1 H. rewrite body_eq in H.
  destruct (load_phase e s) as [[[[wd kf] m] |] t1]; [| injection H as <- <- _; split; [split; discriminate | discriminate]].
  destruct (needs_fakeroot e m) as [nf meta].
  destruct (fake_step e nf t1) as [[u |] t2]; [| injection H as <- <- _; split; [split; discriminate | discriminate]].
  destruct (pack_phase e wd kf m meta nf t2) as [[m' |] t3]; [| injection H as <- <- _; split; [split; discriminate | discriminate]].
  destruct (sign_phase e m' t3) as [[u' | |] t4]; try (injection H as <- <- _; split; [split; discriminate | discriminate]).
  destruct (rm_tree e wd t4) as [[u2 |] t5]; injection H as <- <- _; (split; [split; (reflexivity || discriminate) | discriminate]).
Qed.

(** no output is left unless success is reported without an error *)
Lemma c62_no_partial_output_ok : forall e s ok err s', s_out s = None -> create_bundle e s = (Ret ok err, s') ->
  (ok = true /\ err = false)
  \/ (err = true /\
      (s_out s' = None
       \/ exists l, s_log s' = KUnlinkOut :: l /\ a_ok (e_ans e (List.length l)) = false)).
Proof.
  intros e s ok err s' O H. apply create_inv in H as (k & s1 & B & H); [| assumption].
  apply body_flags in B as [F N]. destruct k.
  - left. apply proj1 in F. specialize (F eq_refl). injection F as -> ->. auto.
  - right. assert (err = true).
    { destruct err; [reflexivity |]. destruct ok; [destruct F as [_ F]; discriminate (F eq_refl) | congruence]. }
    split; [assumption |]. destruct H as [[O1 ->] | (_ & L & O')]; [left; assumption |].
    destruct (a_ok (e_ans e (List.length (s_log s1)))) eqn:A; [left; assumption | right; exists (s_log s1); auto].
Qed.

(** success with an error set: only for the fakeroot directory or the removal of the working directory *)
Lemma rm_fail : forall e p s s', rm_tree e p s = (None, s') ->
  s_log s' = KRmTree p :: s_log s /\ a_ok (e_ans e (List.length (s_log s))) = false.
Proof.
  intros e p s s' H. unfold rm_tree, mbind, ask in H. destruct (a_ok (e_ans e (List.length (s_log s)))) eqn:A; [discriminate |].
  cbn in H. injection H as <-. split; [reflexivity | reflexivity].
Qed.
Lemma cleanup_log : forall e nf s, exists l, s_log (cleanup e nf s) = l ++ s_log s.
Proof.
  intros e nf s. destruct nf; [| exists []; reflexivity]. exists [KFakeRm]. cbn. destruct (a_ok _); reflexivity.
Qed.
Lemma log_split : forall e s ok err s' s1, s_out s = None -> create_bundle e s = (Ret ok err, s') ->
  (forall k, create_body e s = (Ret ok err, k, s1) -> exists l, s_log s' = l ++ s_log s1).
Proof.
  intros e s ok err s' s1 O H k B. apply create_inv in H as (k' & s2 & B' & H); [| assumption].
  rewrite B in B'. injection B' as <- <-. destruct k; [subst; exists []; reflexivity |].
  destruct H as [[_ ->] | (_ & L & _)]; [exists []; reflexivity | exists [KUnlinkOut]; exact L].
Qed.
Lemma c62_odd_success_ok : forall e s s', s_out s = None -> create_bundle e s = (Ret true true, s') ->
  exists l r c, s_log s' = l ++ c :: r /\ (c = KFakeInit \/ c = KRmTree [".rauc-workdir"])
    /\ a_ok (e_ans e (List.length r)) = false.
Proof.
  intros e s s' O H.
  destruct (create_inv _ _ _ _ O H) as (k & s1 & B & _). destruct (log_split _ _ _ _ _ _ O H _ B) as [l0 L0].
  rewrite body_eq in B.
  destruct (load_phase e s) as [[[[wd kf] m] |] t1] eqn:LP; [| discriminate]. apply load_phase_wd in LP. subst wd.
  destruct (needs_fakeroot e m) as [nf meta].
  destruct (fake_step e nf t1) as [[u |] t2] eqn:FS.
  - destruct (pack_phase e [WD] kf m meta nf t2) as [[m' |] t3]; [| discriminate].
    destruct (sign_phase e m' t3) as [[u' | |] t4]; try discriminate.
    destruct (rm_tree e [WD] t4) as [[u2 |] t5] eqn:RM; [discriminate |]. injection B as <- <-.
    apply rm_fail in RM as [RL RA]. destruct (cleanup_log e nf t5) as [l1 L1].
    exists (l0 ++ l1), (s_log t4), (KRmTree [WD]). split; [rewrite L0, L1, RL, app_assoc; reflexivity |]. split; [right; reflexivity | assumption].
  - injection B as <- <-. destruct nf; [| discriminate]. cbn in FS.
    unfold fake_init, mbind, ask in FS. destruct (a_ok (e_ans e (List.length (s_log t1)))) eqn:A; [discriminate |].
    cbn in FS. injection FS as <-.
    exists l0, (s_log t1), KFakeInit. split; [| split; [left; reflexivity | assumption]].
    rewrite L0. destruct (a_left _); reflexivity.
Qed.

(** ** the state after loading *)

Definition quiet {A} (m : M A) : Prop := forall s, let s' := snd (m s) in
  s_root s' = s_root s /\ s_cont s' = s_cont s /\ s_next s' = s_next s /\ s_out s' = s_out s /\ s_fake s' = s_fake s.
Lemma q_ret : forall A (x : A), quiet (ret x). Proof. intros A x s. repeat split. Qed.
Lemma q_fail : forall A, quiet (@fail A). Proof. intros A s. repeat split. Qed.
Lemma q_guard : forall b, quiet (guard b). Proof. intro b. destruct b; [apply q_ret | apply q_fail]. Qed.
Lemma q_get : quiet get. Proof. intro s. repeat split. Qed.
Lemma q_ask : forall e c, quiet (ask e c). Proof. intros e c s. repeat split. Qed.
Lemma q_bind : forall A B (m : M A) (f : A -> M B), quiet m -> (forall x, quiet (f x)) -> quiet (mbind m f).
Proof.
  intros A B m f Hm Hf s. unfold mbind. specialize (Hm s). destruct (m s) as [[x |] s1]; cbn [snd] in *; [| assumption].
  specialize (Hf x s1). cbn zeta in *. intuition congruence.
Qed.
Lemma q_ask_ok : forall e c, quiet (ask_ok e c).
Proof. intros. apply q_bind; [apply q_ask | intro; apply q_guard]. Qed.
Lemma q_load : forall e d, quiet (load_manifest e d).
Proof.
  intros e d. apply q_bind; [apply q_get | intro s]. destruct (open_in e d MF s); [| apply q_fail].
  apply q_bind; [apply q_ask_ok | intro]. destruct (e_parse e _) as [kf |]; [| apply q_fail].
  destruct (parse_manifest kf); [apply q_ret | apply q_fail ..].
Qed.
Lemma q_checksum : forall e d i, quiet (checksum_image e d i).
Proof.
  intros e d i. unfold checksum_image. destruct (im_filename i) as [f |]; [| apply q_ret].
  apply q_bind; [apply q_get | intro s]. destruct (open_in e d f s); [| apply q_fail].
  apply q_bind; [apply q_ask_ok | intro; apply q_ret].
Qed.
Lemma q_each : forall f l, (forall i, quiet (f i)) -> quiet (each_image f l).
Proof.
  intros f l H. induction l as [| i r IH]; [apply q_ret |]. cbn [each_image].
  apply q_bind; [apply H | intro]. apply q_bind; [apply IH | intro; apply q_ret].
Qed.

(** each_image relates inputs and outputs one by one *)
Lemma each_forall2 : forall (P : st -> Prop) (Q : image -> image -> Prop) f l,
  (forall i s i' s', In i l -> P s -> f i s = (Some i', s') -> Q i i' /\ P s') ->
  forall s l' s', P s -> each_image f l s = (Some l', s') -> Forall2 Q l l' /\ P s'.
Proof.
  intros P Q f l. induction l as [| i r IH]; intros H s l' s' Ps E.
  - injection E as <- <-. split; [constructor | assumption].
  - cbn [each_image] in E. apply mbind_some in E as (i' & s1 & E1 & E). apply mbind_some in E as (r' & s2 & E2 & E).
    injection E as <- <-. destruct (H _ _ _ _ (or_introl eq_refl) Ps E1) as [Qi P1].
    destruct (IH ltac:(intros; eapply H; eauto; right; assumption) _ _ _ P1 E2) as [Qr P2]. split; [constructor; assumption | assumption].
Qed.

Definition linked (e : env) (root wd0 : dir) : Prop :=
  link_any (e_link e) (S (e_max e)) (e_max e) (e_up e) true [] (Dir root) = (true, wd0).

Definition summed (e : env) (c : nat -> cont) (op : string -> option nat) (i i' : image) : Prop :=
  match im_filename i with
  | None => i' = with_sum i (im_digest i) (-1)
  | Some f => exists n, op f = Some n /\ i' = with_sum i (Some (e_sha e (c n))) (Z.of_N (e_size e (c n)))
  end.

Lemma load_phase_inv : forall e s wd kf m s1, load_phase e s = (Some (wd, kf, m), s1) ->
  exists root1 wd0 m0 n,
    wd = [WD] /\ s_cont s1 = s_cont s /\ s_next s1 = s_next s /\ s_out s1 = s_out s /\ s_fake s1 = s_fake s
    /\ sim notwd (s_root s) root1 /\ linked e root1 wd0 /\ wdir s1 = Some wd0 /\ sim notwd (s_root s) (s_root s1)
    /\ open_in e [WD] MF s1 = Some n /\ e_parse e (s_cont s n) = Some kf /\ parse_manifest kf = Ok m0
    /\ check_input e m0 = true /\ check_create m0 = true
    /\ exists l, m = with_images m0 l /\ Forall2 (summed e (s_cont s) (fun f => open_in e [WD] f s1)) (mf_images m0) l.
Proof.
  intros e s wd kf m s1 H. unfold load_phase in H.
  apply mbind_some in H as (w & t1 & P & H). assert (W := prepare_wd _ _ _ _ P). subst w.
  assert (SR : sim notwd (s_root s) (s_root t1)) by (pose proof (ki_prepare e s) as X; rewrite P in X; apply X).
  assert (PP : s_cont t1 = s_cont s /\ s_next t1 = s_next s /\ s_out t1 = s_out s /\ s_fake t1 = s_fake s /\
     exists root1 wd0, sim notwd (s_root s) root1 /\ linked e root1 wd0 /\ wdir t1 = Some wd0).
  { clear H. unfold prepare_workdir in P. apply mbind_some in P as (s0 & s0' & G & P). injection G as <- <-.
    apply mbind_some in P as ([] & s2 & R & P). apply mbind_some in P as ([] & s3 & MK & P).
    apply mbind_some in P as (s3' & s3'' & G & P). injection G as <- <-.
    assert (A2 : s_cont s2 = s_cont s /\ s_next s2 = s_next s /\ s_out s2 = s_out s /\ s_fake s2 = s_fake s).
    { assert (RM : forall s s', rm_tree e [WD] s = (Some tt, s') -> s_cont s' = s_cont s /\ s_next s' = s_next s /\ s_out s' = s_out s /\ s_fake s' = s_fake s).
      { intros x x' Hx. apply mbind_some in Hx as (a & x1 & Ea & Hx). injection Ea as <- <-. destruct (a_ok _); [| discriminate].
        injection Hx as <-. repeat split. }
      destruct (tget (s_root s) [WD]) as [[| | |] |]; try (apply RM in R; exact R); [| injection R as <-; auto].
      apply mbind_some in R as (a & x1 & Ea & R). injection Ea as <- <-. destruct (a_ok _).
      - apply RM in R as (? & ? & ? & ?). cbn [s_cont s_next s_out s_fake] in *; repeat split; congruence.
      - injection R as <-. repeat split. }
    assert (S2 : sim notwd (s_root s) (s_root s2)).
    { assert (X : ki (match tget (s_root s) [WD] with
            | Some (Lnk _) => let* a := ask e KStat in (if a_ok a then rm_tree e [WD] else ret tt)
            | Some _ => rm_tree e [WD] | None => ret tt end)).
      { destruct (tget (s_root s) [WD]) as [[| | |] |]; try apply ki_rm; [| apply ki_ret].
        apply ki_bind; [apply ki_ask | intro a]. destruct (a_ok a); [apply ki_rm | apply ki_ret]. }
      specialize (X s). rewrite R in X. apply X. }
    assert (A3 : s_cont s3 = s_cont s2 /\ s_next s3 = s_next s2 /\ s_out s3 = s_out s2 /\ s_fake s3 = s_fake s2).
    { apply mbind_some in MK as (x & x' & G & MK). injection G as <- <-.
      destruct (tget (s_root s2) [WD]); [discriminate |]. apply mbind_some in MK as ([] & x & A & MK).
      apply mbind_some in A as (a & y & Ea & A). injection Ea as <- <-. apply guard_some in A as [_ ->]. injection MK as <-. repeat split. }
    assert (S3 : sim notwd (s_root s2) (s_root s3)) by (pose proof (ki_mkdir e [] s2) as X; rewrite MK in X; apply X).
    destruct (link_any _ _ _ _ _ _ _) as [ok es] eqn:L.
    apply mbind_some in P as ([] & s4 & MO & P). injection MO as <-.
    apply mbind_some in P as ([] & s5 & GU & P). apply guard_some in GU as [-> ->]. injection P as <-.
    destruct A2 as (B1 & B2 & B3 & B4), A3 as (C1 & C2 & C3 & C4).
    repeat (split; [cbn; congruence |]). exists (s_root s3), es. split; [eapply sim_trans; eassumption |]. split; [exact L |].
    unfold wdir, put, set_root. cbn [s_root tget tput]. rewrite assoc_set_eq. reflexivity. }
  destruct PP as (C1 & N1 & O1 & F1 & root1 & wd0 & S1 & L1 & W1).
  apply mbind_some in H as ([kf' m0] & t2 & LD & H). assert (Q2 := q_load e [WD] t1). rewrite LD in Q2. cbn in Q2.
  apply mbind_some in LD as (x & x' & G & LD). injection G as <- <-.
  destruct (open_in e [WD] MF t1) as [n |] eqn:ON; [| discriminate].
  apply mbind_some in LD as ([] & t2' & AK & LD).
  destruct (e_parse e (s_cont t1 n)) as [kf'' |] eqn:EP; [| discriminate].
  destruct (parse_manifest kf'') as [m0' | |] eqn:PM; try discriminate. injection LD as -> -> ->.
  cbn [fst snd] in H.
  apply mbind_some in H as ([] & t3 & G & H). apply guard_some in G as [CI ->].
  apply mbind_some in H as ([] & t3 & G & H). apply guard_some in G as [CC ->].
  apply mbind_some in H as (m1 & t4 & SY & H). injection H as <- -> -> ->.
  destruct Q2 as (R2 & C2 & N2 & O2 & F2).
  apply mbind_some in SY as (x & x' & G & SY). injection G as <- <-.
  apply mbind_some in SY as ([] & x & G & SY). apply guard_some in G as [_ ->].
  apply mbind_some in SY as ([] & x & G & SY). apply guard_some in G as [_ ->].
  apply mbind_some in SY as (l & t5 & EA & SY). injection SY as <- ->.
  assert (Q5 := q_each (checksum_image e [WD]) (mf_images m0) (q_checksum e [WD]) t2). rewrite EA in Q5. cbn in Q5.
  destruct Q5 as (R5 & C5 & N5 & O5 & F5).
  assert (OP : forall f s s', s_root s' = s_root s -> open_in e [WD] f s' = open_in e [WD] f s) by (intros f x x' E; unfold open_in; rewrite E; reflexivity).
  exists root1, wd0, m0, n. split; [reflexivity |]. do 4 (split; [congruence |]).
  split; [assumption |]. split; [assumption |]. split; [unfold wdir in *; rewrite R5, R2; assumption |].
  split; [rewrite R5, R2; assumption |].
  split; [rewrite (OP _ t1) by congruence; assumption |]. split; [rewrite <- C1; assumption |].
  split; [assumption |]. split; [assumption |]. split; [assumption |].
  exists l. split; [reflexivity |].
  eapply (each_forall2 (fun x => s_root x = s_root t1 /\ s_cont x = s_cont s)); [| | exact EA]; [| split; congruence].
  intros i x i' x' I [Rx Cx] Hc. unfold checksum_image in Hc. unfold summed.
  assert (Qc := q_checksum e [WD] i x). unfold checksum_image in Qc. rewrite Hc in Qc. cbn in Qc.
  split; [| destruct Qc as (Qr & Qc & _); split; congruence].
  destruct (im_filename i) as [f |]; [| injection Hc as <- _; reflexivity].
  apply mbind_some in Hc as (y & y' & G & Hc). injection G as <- <-.
  destruct (open_in e [WD] f x) as [k |] eqn:Ok; [| discriminate].
  apply mbind_some in Hc as ([] & y & _ & Hc). injection Hc as <- _. exists k. rewrite Cx. split; [| reflexivity].
  rewrite <- Ok. apply OP. congruence.
Qed.
