(** Proofs for C63: whole runs. *)
From Verif Require Import Base BaseLemmas KeyFile KeyFileLemmas Image Manifest BundleCreate BundleCreateSpec BundleCreateLink BundleCreateFrame
  BundleCreateProofs BundleCreateRun BundleCreateOut BundleCreateDone BundleCreateMore ShellWords CasyncConvert CasyncConvertSpec CasyncConvertProofs.

Definition option_eq_dec_s (a b : option string) : {a = b} + {a <> b}.
Proof. decide equality. apply string_dec. Defined.

Lemma lg_tmp : forall e (P : call -> Prop) p, P (KTmp p) -> lg P (make_tmp e p).
Proof.
  intros e P p H. apply lg_bind; [apply lg_ask; assumption | intro a]. apply lg_bind; [apply lg_get | intro s].
  destruct (assoc _ _); [apply lg_fail |]. apply lg_bind; [apply lg_guard | intro]. apply lg_bind; [apply lg_put | intro; apply lg_ret].
Qed.
Lemma lg_args : forall (P : call -> Prop) o, lg P (parse_args o).
Proof. intros P o. unfold parse_args. destruct (o_args o) as [[l |] |]; [apply lg_ret | apply lg_fail | apply lg_ret]. Qed.

(** what the calls made for one image may look like *)
Definition image_call (e : env) (o : copt) (t f : string) (c : call) : Prop :=
  match c with
  | KTmp p => p = "arch-" /\ is_archive f = true /\ o_desync o = false
  | KStoreDir p => p = store_path o /\ o_desync o = true
  | KRemove p => p = content_path o t f
  | KTool argv => exists args, given_args o args /\
      ((argv = blob_argv o (content_path o t (index_name f)) (content_path o t f) args /\ (is_archive f = false \/ o_desync o = true))
       \/ exists tmp, has_prefix "arch-" tmp = true /\ is_archive f = true /\ o_desync o = false
          /\ argv = arch_argv e o (content_path o t (index_name f)) (content_path o t f) (o_tmpdir o ++ "/" ++ tmp)%string args)
  | _ => False
  end.

Lemma parse_given : forall o s l s', parse_args o s = (Some l, s') -> given_args o l.
Proof. intros o s l s' H. apply parse_args_inv in H as [_ H]. exact H. Qed.

(** a continuation only needs to be looked at for results the first step can give *)
Lemma lg_bind_if : forall A B P (Q : A -> Prop) (m : M A) (f : A -> M B), lg P m -> (forall s x s', m s = (Some x, s') -> Q x) ->
  (forall x, Q x -> lg P (f x)) -> lg P (mbind m f).
Proof.
  intros A B P Q m f Hm HQ Hf s. unfold mbind. destruct (Hm s) as (l & E & F). destruct (m s) as [[x |] s1] eqn:M1; cbn [snd] in *; [| eauto].
  destruct (Hf x (HQ _ _ _ M1) s1) as (l' & E' & F'). exists (l' ++ l). rewrite E', E, app_assoc. split; [reflexivity | apply Forall_app; auto].
Qed.

Lemma lg_blob : forall e o t f, (is_archive f = false \/ o_desync o = true) -> lg (image_call e o t f) (make_blob e o t f (index_name f)).
Proof.
  intros e o t f H. apply lg_bind. { destruct (o_desync o) eqn:D; [apply lg_ask_ok; cbn; auto | apply lg_ret]. }
  intro. apply (lg_bind_if _ _ _ (given_args o)); [apply lg_args | apply parse_given |]. intros args G. apply lg_tool. exists args. auto.
Qed.
Lemma lg_arch : forall e o t f, is_archive f = true -> lg (image_call e o t f) (make_arch e o t f (index_name f)).
Proof.
  intros e o t f H. unfold make_arch. destruct (o_desync o) eqn:D; [apply lg_blob; auto |].
  apply (lg_bind_if _ _ _ (fun n => has_prefix "arch-" n = true)); [apply lg_tmp; cbn; auto | |].
  { intros s x s' M1. apply make_tmp_inv in M1. tauto. }
  intros n PN. apply (lg_bind_if _ _ _ (given_args o)); [apply lg_args | apply parse_given |]. intros args G. apply lg_tool.
  exists args. split; [assumption |]. right. exists n. auto.
Qed.
Lemma lg_one : forall e o t i, lg (fun c => exists f, target o i = Some f /\ image_call e o t f c) (convert_one e o t i).
Proof.
  intros e o t i. unfold convert_one, target. destruct (im_filename i) as [f |]; [| apply lg_ret].
  destruct (existsb _ _); [apply lg_ret |].
  assert (W : forall A (m : M A), lg (image_call e o t f) m -> lg (fun c => exists f0, Some f = Some f0 /\ image_call e o t f0 c) m).
  { intros A m H s. destruct (H s) as (l & E & F). exists l. split; [assumption |]. eapply Forall_impl; [| exact F]. cbn. eauto. }
  apply W. apply lg_bind; [destruct (is_archive f) eqn:A; [apply lg_arch | apply lg_blob]; auto | intro].
  apply lg_bind; [apply lg_ask; reflexivity | intro a]. apply lg_bind; [destruct (_ && _); [apply lg_put | apply lg_ret] | intro; apply lg_ret].
Qed.

Lemma log_step : forall A (m : M A) P s x s', lg P m -> m s = (Some x, s') -> exists l, s_log s' = l ++ s_log s.
Proof. intros A m P s x s' H E. destruct (H s) as (l & L & _). rewrite E in L. cbn in L. eauto. Qed.
Lemma refused_later : forall e s s' p l, refused e s p -> s_log s' = l ++ s_log s -> refused e s' p.
Proof. intros e s s' p l (l1 & l2 & E & A) L. exists (l ++ l1), l2. rewrite L, E, app_assoc. auto. Qed.

Lemma lg_each : forall P f l, (forall i, In i l -> lg P (f i)) -> lg P (each_image f l).
Proof.
  induction l as [| i r IH]; intro H; cbn [each_image]; [apply lg_ret |]. apply lg_bind; [apply H; left; reflexivity | intro].
  apply lg_bind; [apply IH; intros; apply H; right; assumption | intro; apply lg_ret].
Qed.

Lemma each_loop : forall e o t l s l' s' d, has_prefix "rauc-casync-" t = true -> cdir t s = Some d ->
  each_image (convert_one e o t) l s = (Some l', s') -> exists d', loop e o t l l' s s' d d'.
Proof.
  intros e o t l. induction l as [| i r IH]; intros s l' s' d PT CD H; cbn [each_image] in H.
  { injection H as <- <-. exists d. split; auto; intros; contradiction. }
  apply mbind_some in H as (i' & s1 & C & H). apply mbind_some in H as (r' & s2 & R & H). injection H as <- <-.
  assert (LR : exists l, s_log s2 = l ++ s_log s1).
  { eapply (log_step _ _ (fun _ => True)); [| exact R]. apply lg_each. intros j _ x. destruct (lg_one e o t j x) as (l & E & _). exists l. split; [assumption |].
    clear. induction l; constructor; auto. }
  destruct LR as [lr LR]. assert (CO := convert_one_inv _ _ _ _ _ _ _ _ PT CD C). destruct (target o i) as [f |] eqn:TG.
  2: { destruct CO as [-> ->]. destruct (IH s r' s2 d PT CD R) as (d' & [L1 L2 L3 L4 L5 L6 L7 L8 L9]). exists d'. split; auto.
       - constructor; [apply reindexed_same; assumption | assumption].
       - intros n Hn. apply L6. intros j g J. apply Hn. right. assumption.
       - intros j g [<- | J] T; [congruence |]. intros SL Hx. eapply L7; eauto. intros; eapply Hx; eauto. right. assumption.
       - intros j g [<- | J] T; [congruence |]. intros SL Hx. eapply L8; eauto. intros; eapply Hx; eauto. right. assumption.
       - intros j g n [<- | J] T; [congruence |]. intros SL A B Hx. eapply L9; eauto. intros; eapply Hx; eauto. right. assumption. }
  destruct CO as (-> & O1 & N1 & K1 & CO).
  assert (D1 : exists d1, cdir t s1 = Some d1 /\
     (forall n, n <> f -> n <> index_name f -> assoc n d1 = assoc n d) /\
     (has_char "/" f = false -> assoc f d <> None /\
        (assoc f d1 = None \/ (assoc f d1 = assoc f d /\ refused e s1 (content_path o t f)))
        /\ assoc (index_name f) d1 = Some (Reg (s_next s)) /\ s_next s < s_next s1
        /\ forall n, assoc f d = Some (Reg n) -> s_cont s1 (s_next s) = CCasync (is_archive f) (s_cont s n))
     /\ (has_char "/" f = true -> d1 = d)).
  { destruct (has_char "/" f).
    - exists d. repeat split; auto; discriminate.
    - destruct CO as (c & NN & HC & KC & NX & [CD1 | (CD1 & lg1 & LG & OK)]); eexists; (split; [exact CD1 |]); (split; [| split; [intros _ | discriminate]]).
      + intros n A B. rewrite assoc_remove_neq, assoc_set_neq by congruence. reflexivity.
      + split; [assumption |]. split; [left; apply assoc_remove_eq |]. split; [rewrite assoc_remove_neq by apply not_eq_sym, idx_neq_f; apply assoc_set_eq |].
        split; [assumption |]. intros n A. rewrite KC, (HC n A). reflexivity.
      + intros n A B. rewrite assoc_set_neq by congruence. reflexivity.
      + split; [assumption |]. split; [right; split; [apply assoc_set_neq, idx_neq_f | exists [], lg1; auto] |]. split; [apply assoc_set_eq |].
        split; [assumption |]. intros n A. rewrite KC, (HC n A). reflexivity. }
  clear CO. destruct D1 as (d1 & CD1 & OT & HD & SLD). destruct (IH s1 r' s2 d1 PT CD1 R) as (d' & [L1 L2 L3 L4 L5 L6 L7 L8 L9]).
  exists d'. split; auto.
  - congruence.
  - lia.
  - intros k Hk. rewrite L4, K1 by lia. reflexivity.
  - constructor; [apply with_filename_reindexed; assumption | assumption].
  - intros n Hn. rewrite L6 by (intros j g J; apply Hn; right; assumption). destruct (Hn i f (or_introl eq_refl) TG). apply OT; assumption.
  - (* source *)
    intros j g [<- | J] T SL Hx.
    + rewrite TG in T. injection T as <-. apply HD. assumption.
    + assert (X : assoc g d1 <> None) by (apply (L7 j g J T SL); intros; eapply Hx; eauto; right; assumption).
      assert (NG : g <> index_name f) by (apply (Hx i f (or_introl eq_refl) TG)).
      destruct (String.eqb_spec g f) as [-> | Ng]; [apply HD; assumption |]. rewrite <- (OT g Ng NG). assumption.
  - (* gone *)
    intros j g [<- | J] T SL Hx.
    + rewrite TG in T. injection T as <-. destruct (HD SL) as (_ & [G1 | (_ & G1)] & _).
      * destruct (in_dec (fun a b => option_eq_dec_s a b) (Some f) (map (target o) r)) as [I | NI].
        -- apply in_map_iff in I as (j & Tj & J). apply (L8 j f J Tj SL). intros; eapply Hx; eauto; right; assumption.
        -- left. rewrite L6; [assumption |]. intros j g J Tj. split.
           ++ intro E; subst g. apply NI. apply in_map_iff. eauto.
           ++ eapply Hx; eauto. right. assumption.
      * right. eapply refused_later; eassumption.
    + apply (L8 j g J T SL). intros; eapply Hx; eauto; right; assumption.
  - (* index *)
    intros j g n IJ T SL A B Hx.
    assert (A1 : In j r -> assoc g d1 = Some (Reg n)).
    { intro J. destruct (String.eqb_spec g f) as [-> | Ng].
      - destruct (HD SL) as (_ & [G1 | (G1 & _)] & _); [| rewrite G1; assumption]. exfalso. apply (L7 j f J T SL); [| assumption].
        intros j' g' J' T'. apply (Hx j' g' (or_intror J') T').
      - rewrite OT; [assumption | assumption | apply (Hx i f (or_introl eq_refl) TG)]. }
    assert (REST : forall j0, In j0 r -> target o j0 = Some g -> assoc g d1 = Some (Reg n) ->
       exists k, assoc (index_name g) d' = Some (Reg k) /\ k < s_next s2 /\ s_cont s2 k = CCasync (is_archive g) (s_cont s n)).
    { intros j0 J T0 A2. destruct (L9 j0 g n J T0 SL A2 ltac:(lia)) as (k & ? & ? & E); [intros j1 g1 J1 T1; apply (Hx j1 g1 (or_intror J1) T1) |].
      exists k. rewrite E, K1 by assumption. auto. }
    destruct IJ as [<- | J]; [| apply (REST j J T); auto].
    rewrite TG in T. injection T as <-. destruct (HD SL) as (_ & G & IX & NX & CC).
    destruct (in_dec (fun a b => option_eq_dec_s a b) (Some f) (map (target o) r)) as [I | NI].
    + apply in_map_iff in I as (j & Tj & J). apply (REST j J Tj). destruct G as [G1 | (G1 & _)]; [| rewrite G1; assumption].
      exfalso. apply (L7 j f J Tj SL); [| assumption]. intros j' g' J' T'. apply (Hx j' g' (or_intror J') T').
    + exists (s_next s). rewrite L6.
      * split; [assumption |]. split; [lia |]. rewrite L4 by assumption. apply CC. assumption.
      * intros j g J Tj. split.
        -- apply (Hx j g (or_intror J) Tj).
        -- intro E. apply index_inj in E. subst g. apply NI. apply in_map_iff. eauto.
Qed.
