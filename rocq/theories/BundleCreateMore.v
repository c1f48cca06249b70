(** Proofs for C62: requirements, adaptive data, removed images, use of fakeroot. *)
From Verif Require Import Base BaseLemmas KeyFile KeyFileLemmas Image Manifest BundleCreate BundleCreateSpec BundleCreateLink BundleCreateFrame
  BundleCreateProofs BundleCreateRun BundleCreateOut BundleCreateDone BundleCreateEnd BundleCreateConv BundleCreateCases.

(** ** what a successful run requires *)
Lemma methods_known : forall e d f fake l s ck s', convert_methods e d f fake l s = (Some ck, s') ->
  forall m, In m l -> m = "tar-extract" \/ (m = "composefs" /\ e_composefs e = true) \/ m = "keep".
Proof.
  intros e d f fake. induction l as [| m r IH]; intros s ck s' H x I; [destruct I |]. cbn [convert_methods] in H.
  apply mbind_some in H as (c & s1 & C & H). apply mbind_some in H as (cr & s2 & R & H). destruct I as [-> | I]; [| eauto].
  destruct (String.eqb_spec x "tar-extract"); [auto |]. destruct (String.eqb_spec x "composefs").
  - apply mbind_some in C as (u & s3 & G & _). apply guard_some in G as [G _]. auto.
  - destruct (String.eqb_spec x "keep"); [auto | discriminate].
Qed.
Lemma convert_known : forall e kf d fake i s i' s', convert_image e kf d fake i s = (Some i', s') -> has_key kf i "convert" = true ->
  forall m, In m (im_convert i) -> m = "tar-extract" \/ (m = "composefs" /\ e_composefs e = true) \/ m = "keep".
Proof.
  intros e kf d fake i s i' s' H HK m I. unfold convert_image in H. destruct (_ && _); [discriminate |]. rewrite HK in H. cbn [negb] in H.
  destruct (im_filename i) as [f |]; [| discriminate]. cbv zeta in H. apply mbind_some in H as (u & s1 & _ & H).
  apply mbind_some in H as (ck & s2 & C & H). eapply methods_known; eassumption.
Qed.
Lemma adaptive_known : forall e d f l s u s', adaptive_methods e d f l s = (Some u, s') ->
  forall m, In m l -> m = "block-hash-index" \/ m = "adaptive-test-method".
Proof.
  intros e d f. induction l as [| m r IH]; intros s u s' H x I; [destruct I |]. cbn [adaptive_methods] in H.
  apply mbind_some in H as (v & s1 & C & H). destruct I as [-> | I]; [| eauto].
  destruct (String.eqb_spec x "block-hash-index"); [auto |]. apply guard_some in C as [C _]. apply String.eqb_eq in C. auto.
Qed.
Lemma generate_known : forall e d l s u s', generate_adaptive e d l s = (Some u, s') ->
  forall i m, In i l -> In m (im_adaptive i) -> m = "block-hash-index" \/ m = "adaptive-test-method".
Proof.
  intros e d. induction l as [| i r IH]; intros s u s' H x m I J; [destruct I |]. cbn [generate_adaptive] in H.
  apply mbind_some in H as (v & s1 & C & H). destruct I as [-> | I]; [| eauto].
  destruct (im_adaptive x) as [| a q]; [destruct J |]. destruct (im_filename x) as [f |]; [| discriminate]. eapply adaptive_known; eassumption.
Qed.
Lemma each_run : forall f l s l' s', each_image f l s = (Some l', s') -> forall i, In i l -> exists t i' t', f i t = (Some i', t').
Proof.
  intros f. induction l as [| i r IH]; intros s l' s' H x I; [destruct I |]. cbn [each_image] in H.
  apply mbind_some in H as (v & s1 & C & H). apply mbind_some in H as (w & s2 & R & H). destruct I as [-> | I]; eauto.
Qed.
Lemma summed_in : forall e c op l l1, Forall2 (summed e c op) l l1 ->
  forall i, In i l -> exists i1, In i1 l1 /\ im_filename i1 = im_filename i /\ im_convert i1 = im_convert i /\ im_adaptive i1 = im_adaptive i
    /\ image_group i1 = image_group i.
Proof.
  intros e c op l l1 FL. induction FL as [| a b r r' Hab R IH]; [intros i [] |]. intros i [-> | I].
  - exists b. split; [left; reflexivity |]. unfold summed in Hab. destruct (im_filename i) eqn:F; [destruct Hab as (n & _ & ->) | subst b]; cbn; rewrite ?F; auto.
  - destruct (IH i I) as (i1 & I1 & ?). exists i1. split; [right; assumption | assumption].
Qed.
Lemma open_name : forall e wd0 s root f n, linked e root wd0 -> wdir s = Some wd0 -> open_in e [WD] f s = Some n -> assoc f root <> None.
Proof.
  intros e wd0 s root f n L W O. unfold open_in in O. unfold wdir in W.
  destruct (tget (s_root s) [WD]) as [[| es | |] |]; try discriminate. injection W as ->. intro A.
  destruct (e_max e) eqn:EM; cbn [follow] in O;
    (destruct (String.eqb f "."); [discriminate |]; destruct (String.eqb f ".."); [discriminate |];
     destruct (String.eqb_spec f WD) as [-> | Nf]; [discriminate |]; unfold linked in L; rewrite link_eq in L;
     assert (X := each_assoc _ _ _ _ _ _ _ _ _ L f Nf); rewrite A in X; rewrite X in O; discriminate).
Qed.
Lemma exists_name : forall e wd0 s root f, linked e root wd0 -> wdir s = Some wd0 -> exists_in e [WD] f s = true ->
  f = "." \/ f = ".." \/ f = ".rauc-workdir" \/ assoc f root <> None.
Proof.
  intros e wd0 s root f L W O. unfold exists_in in O. unfold wdir in W.
  destruct (tget (s_root s) [WD]) as [[| es | |] |]; try discriminate. injection W as ->.
  destruct (e_max e) eqn:EM; cbn [follow] in O;
    (destruct (String.eqb_spec f "."); [auto |]; destruct (String.eqb_spec f ".."); [auto |];
     destruct (String.eqb_spec f WD) as [-> | Nf]; [auto |]; right; right; right; intro A; unfold linked in L; rewrite link_eq in L;
     assert (X := each_assoc _ _ _ _ _ _ _ _ _ L f Nf); rewrite A in X; rewrite X in O; discriminate).
Qed.
Lemma load_hook : forall e s wd kf m s1, load_phase e s = (Some (wd, kf, m), s1) ->
  match mf_hook m with Some h => exists_in e [WD] h s1 = true | None => True end.
Proof.
  intros e s wd kf m s1 H. unfold load_phase in H.
  apply mbind_some in H as (w & t1 & P & H). assert (W := prepare_wd _ _ _ _ P). subst w.
  apply mbind_some in H as ([kf' m0] & t2 & LD & H). cbn [fst snd] in H.
  apply mbind_some in H as ([] & t3 & G & H). apply guard_some in G as [CI ->].
  apply mbind_some in H as ([] & t3 & G & H). apply guard_some in G as [CC ->].
  apply mbind_some in H as (m1 & t4 & SY & H). injection H as <- -> -> ->.
  apply mbind_some in SY as (x & x' & G & SY). injection G as <- <-.
  apply mbind_some in SY as ([] & x & G & SY). apply guard_some in G as [_ ->].
  apply mbind_some in SY as ([] & x & G & SY). apply guard_some in G as [HK ->].
  apply mbind_some in SY as (l & t5 & EA & SY). injection SY as <- ->.
  assert (Q5 := q_each (checksum_image e [WD]) (mf_images m0) (q_checksum e [WD]) t2). rewrite EA in Q5. cbn in Q5. destruct Q5 as (R5 & _).
  cbn [with_images mf_hook]. destruct (mf_hook m0); [| exact Logic.I]. unfold exists_in in *. rewrite R5. exact HK.
Qed.

Lemma c62_requirements_ok : forall e s s', s_out s = None -> create_bundle e s = (Ret true false, s') ->
  exists kf m0, parse_manifest kf = Ok m0
    /\ (forall n, assoc "manifest.raucm" (s_root s) = Some (Reg n) -> e_parse e (s_cont s n) = Some kf)
    /\ assoc "manifest.raucm" (s_root s) <> None
    /\ (forall h, mf_hook m0 = Some h -> h = "." \/ h = ".." \/ h = ".rauc-workdir" \/ assoc h (s_root s) <> None)
    /\ forall i, In i (mf_images m0) ->
         (forall f, im_filename i = Some f -> has_char "/" f = false /\ assoc f (s_root s) <> None)
         /\ (forall m, In m (im_adaptive i) -> m = "block-hash-index" \/ m = "adaptive-test-method")
         /\ (forall m, In m (im_convert i) -> m = "tar-extract" \/ (m = "composefs" /\ e_composefs e = true) \/ m = "keep")
         /\ (im_install i = true -> im_pre i = false /\ im_post i = false)
         /\ im_digest i = None /\ im_size i = (-1)%Z /\ im_converted i = [].
Proof.
  intros e s s' O H.
  destruct (success_inv _ _ _ O H) as (t1 & t2 & t3 & kf & m & root1 & wd0 & m0 & l & nf & meta & u & t4 & t5 & m' & d & j & o & ms &
    LP & NF & FS & PP & RM & -> & C2 & N2 & S1 & L1 & W1 & W2 & PM & CI & CC & (n & OM & EP) & -> & FL & W3 & SD & J1 & J2 & CT & -> & Z1 & Z2 & Z3 & Z4 & Z5 & RT).
  exists kf, m0. split; [assumption |].
  split. { intros k A. assert (X := open_top _ _ _ root1 _ _ k L1 W1 OM). rewrite <- X; [assumption |].
           rewrite <- (sim_assoc _ _ _ _ S1); [assumption | reflexivity]. }
  assert (OR : forall f k, open_in e [WD] f t1 = Some k -> assoc f (s_root s) <> None).
  { intros f k OK. rewrite (sim_assoc _ _ _ f S1); [exact (open_name _ _ _ _ _ _ L1 W1 OK) |]. apply notwd_true. intros ->.
    unfold open_in in OK. destruct (tget (s_root t1) [WD]) as [[| es | |] |]; try discriminate. destruct (e_max e); discriminate. }
  split; [eapply OR; eassumption |].
  split. { intros h Eh. apply load_hook in LP. cbn [with_images mf_hook] in LP. rewrite Eh in LP.
           destruct (String.eqb_spec h WD) as [-> | Nh]; [auto |]. rewrite (sim_assoc _ _ _ h S1); [exact (exists_name _ _ _ _ _ L1 W1 LP) | apply notwd_true; assumption]. }
  intros i I. destruct (input_image _ _ _ CI I) as (D1 & D2 & D3 & D4).
  unfold pack_phase in PP. apply mbind_some in PP as ([] & q1 & G & PP). apply mbind_some in PP as (l2 & q2 & C & PP).
  destruct (summed_in _ _ _ _ _ FL i I) as (i1 & I1 & F1 & V1 & A1 & G1).
  split.
  { intros f Ef. rewrite Ef in D4. split; [assumption |]. clear - FL I Ef OR. induction FL as [| a b r r' Hab R IH]; [destruct I |].
    destruct I as [-> | I]; [| auto]. unfold summed in Hab. rewrite Ef in Hab. destruct Hab as (k & OK & _). eapply OR; eassumption. }
  split. { intros x Hx. eapply (generate_known _ _ _ _ _ _ G i1 x I1). rewrite A1. assumption. }
  split. { intros x Hx. destruct (each_run _ _ _ _ _ C i1 I1) as (t & i' & t' & R). eapply (convert_known _ _ _ _ _ _ _ _ R); [| rewrite V1; assumption].
           unfold has_key. rewrite G1. eapply parse_convert_key; [eassumption | assumption |]. intro E. rewrite E in Hx. destruct Hx. }
  split; [| auto].
  intro Ins. unfold check_create in CC. rewrite forallb_forall in CC. specialize (CC _ I). rewrite Ins in CC. destruct (im_pre i), (im_post i); auto.
Qed.

(** ** how tools are run *)
Definition lg {A} (P : call -> Prop) (m : M A) : Prop := forall s, exists l, s_log (snd (m s)) = l ++ s_log s /\ Forall P l.
Definition tool_ok (meta need : bool) (c : call) : Prop :=
  match c with
  | KTar _ _ b | KComposefs _ _ _ b => b = need
  | KSquash src b b' => src = [".rauc-workdir"] /\ b = meta /\ b' = need
  | KFakeInit => need = true
  | _ => True
  end.
Lemma lg_nolog : forall A P (m : M A), (forall s, s_log (snd (m s)) = s_log s) -> lg P m.
Proof. intros A P m H s. exists []. split; [apply H | constructor]. Qed.
Lemma lg_ret : forall A P (x : A), lg P (ret x). Proof. intros. apply lg_nolog. reflexivity. Qed.
Lemma lg_fail : forall A P, lg P (@fail A). Proof. intros. apply lg_nolog. reflexivity. Qed.
Lemma lg_guard : forall P b, lg P (guard b). Proof. intros. apply lg_nolog. intro s. destruct b; reflexivity. Qed.
Lemma lg_get : forall P, lg P get. Proof. intros. apply lg_nolog. reflexivity. Qed.
Lemma lg_put : forall P p x, lg P (modify (put p x)). Proof. intros. apply lg_nolog. reflexivity. Qed.
Lemma lg_out : forall P o, lg P (modify (set_out o)). Proof. intros. apply lg_nolog. reflexivity. Qed.
Lemma lg_ask : forall e (P : call -> Prop) c, P c -> lg P (ask e c).
Proof. intros e P c H s. exists [c]. split; [reflexivity | repeat constructor; assumption]. Qed.
Lemma lg_bind : forall A B P (m : M A) (f : A -> M B), lg P m -> (forall x, lg P (f x)) -> lg P (mbind m f).
Proof.
  intros A B P m f Hm Hf s. unfold mbind. destruct (Hm s) as (l & E & F). destruct (m s) as [[x |] s1]; cbn [snd] in *; [| eauto].
  destruct (Hf x s1) as (l' & E' & F'). exists (l' ++ l). rewrite E', E, app_assoc. split; [reflexivity | apply Forall_app; auto].
Qed.
Lemma lg_ask_ok : forall e (P : call -> Prop) c, P c -> lg P (ask_ok e c).
Proof. intros. apply lg_bind; [apply lg_ask; assumption | intro; apply lg_guard]. Qed.
Lemma lg_mkdir : forall e (P : call -> Prop) p, P (KMkdir p) -> lg P (mkdir e p).
Proof.
  intros. apply lg_bind; [apply lg_get | intro s]. destruct (tget (s_root s) p); [apply lg_fail |]. apply lg_bind; [apply lg_ask_ok; assumption | intro; apply lg_put].
Qed.
Lemma lg_rm : forall e (P : call -> Prop) p, P (KRmTree p) -> lg P (rm_tree e p).
Proof.
  intros. apply lg_bind; [apply lg_ask; assumption | intro a]. destruct (a_ok a); [apply lg_put |]. apply lg_bind; [apply lg_put | intro; apply lg_fail].
Qed.
Lemma lg_set : forall e (P : call -> Prop) p c, P (KWrite p) -> lg P (set_contents e p c).
Proof.
  intros e P p c H. apply lg_bind; [apply lg_get | intro s].
  assert (X : lg P (ask_ok e (KWrite p) ;; modify (fun s => mkSt (tput (s_root s) p (Some (Reg (s_next s))))
                               (fun i => if Nat.eqb i (s_next s) then c else s_cont s i)
                               (S (s_next s)) (s_out s) (s_fake s) (s_log s)))) by (apply lg_bind; [apply lg_ask_ok; assumption | intros; apply lg_nolog; reflexivity]).
  destruct (tget (s_root s) p) as [[| | |] |]; first [exact X | apply lg_fail].
Qed.
Ltac lk := repeat first
  [ apply lg_ret | apply lg_fail | apply lg_guard | apply lg_get | apply lg_put | apply lg_out
  | apply lg_ask; cbn; tauto | apply lg_ask_ok; cbn; tauto | apply lg_mkdir; cbn; tauto | apply lg_rm; cbn; tauto | apply lg_set; cbn; tauto
  | apply lg_bind; [| intro]
  | match goal with
    | |- lg _ (let (_, _) := ?x in _) => destruct x
    | |- lg _ (match ?x with _ => _ end) => destruct x
    | |- lg _ (if ?x then _ else _) => destruct x
    end ].
Lemma lg_load : forall e a b, lg (tool_ok a b) (load_phase e).
Proof.
  intros. unfold load_phase, prepare_workdir, load_manifest, sync_manifest. cbv zeta. lk.
  induction (mf_images (snd x0)) as [| i r IH]; cbn [each_image]; [lk |].
  apply lg_bind; [unfold checksum_image; lk | intro]. apply lg_bind; [exact IH | intro; lk].
Qed.
Lemma lg_pack : forall e kf m meta need, lg (tool_ok meta need) (pack_phase e [WD] kf m meta need).
Proof.
  intros. unfold pack_phase. apply lg_bind.
  { induction (mf_images m) as [| i r IH]; cbn [generate_adaptive]; [lk |]. apply lg_bind; [| intro; exact IH].
    destruct (im_adaptive i) as [| x q]; [lk |]. destruct (im_filename i) as [f |]; [| lk]. generalize (x :: q). intro ms.
    induction ms as [| y ms IHm]; cbn [adaptive_methods]; [lk |]. apply lg_bind; [lk | intro; exact IHm]. }
  intro. apply lg_bind; [| intro; cbv zeta; unfold mksquashfs; lk].
  induction (mf_images m) as [| i r IH]; cbn [each_image]; [lk |]. apply lg_bind; [| intro; apply lg_bind; [exact IH | intro; lk]].
  unfold convert_image. destruct (_ && _); [lk |]. destruct (negb _); [lk |]. destruct (im_filename i) as [f |]; [| lk]. cbv zeta.
  apply lg_bind. { unfold tar_extract. lk. }
  intro. apply lg_bind; [| intro; lk].
  generalize (im_convert i). intro l. induction l as [| y l IHl]; cbn [convert_methods]; [lk |].
  apply lg_bind; [unfold composefs; lk | intro]. apply lg_bind; [exact IHl | intro; lk].
Qed.
Lemma lgs_verity : forall e a b m s, exists l, s_log (snd (create_verity e m s)) = l ++ s_log s /\ Forall (tool_ok a b) l.
Proof.
  intros. unfold create_verity. destruct (lg_ask_ok e (tool_ok a b) KVerityOpen Logic.I s) as (l & E & F).
  assert (X := lift_snd _ (ask_ok e KVerityOpen) s). destruct (lift (ask_ok e KVerityOpen) s) as [[u | |] s1]; cbn [snd] in *; rewrite <- X in E; [| eauto ..].
  destruct (mf_verity_salt m), (mf_verity_hash m); try (cbn [snd]; eauto). destruct (mf_verity_size m =? 0)%N; [| cbn [snd]; eauto].
  rewrite lift_snd. match goal with |- context [snd (?M s1)] => assert (L : lg (tool_ok a b) M) by (unfold rewrite_out; lk) end.
  destruct (L s1) as (l' & E' & F'). exists (l' ++ l). rewrite E', E, app_assoc. split; [reflexivity | apply Forall_app; auto].
Qed.
Lemma lgs_sign : forall e a b m s, exists l, s_log (snd (lift (sign e m) s)) = l ++ s_log s /\ Forall (tool_ok a b) l.
Proof.
  intros. rewrite lift_snd. assert (L : lg (tool_ok a b) (sign e m)).
  { unfold sign. destruct (if bformat_eqb (mf_format m) F_PLAIN then _ else _); unfold rewrite_out; lk. }
  apply L.
Qed.
Lemma lgs_bundle : forall e a b m s, exists l, s_log (snd (sign_bundle e m s)) = l ++ s_log s /\ Forall (tool_ok a b) l.
Proof.
  intros. unfold sign_bundle. destruct (bformat_eqb (mf_format m) F_PLAIN); [apply lgs_sign |].
  destruct (lgs_verity e a b m s) as (l & E & F). destruct (create_verity e m s) as [[x | |] s1]; cbn [snd] in *; [| eauto ..].
  destruct (lgs_sign e a b x s1) as (l' & E' & F'). exists (l' ++ l). rewrite E', E, app_assoc. split; [reflexivity | apply Forall_app; auto].
Qed.
Lemma lgs_phase : forall e a b m s, exists l, s_log (snd (sign_phase e m s)) = l ++ s_log s /\ Forall (tool_ok a b) l.
Proof.
  intros. unfold sign_phase. destruct (bformat_eqb (mf_format m) F_CRYPT); [| apply lgs_bundle].
  assert (X : exists l, s_log (snd (encrypt_payload e m s)) = l ++ s_log s /\ Forall (tool_ok a b) l).
  { unfold encrypt_payload. destruct (mf_crypt_key m); [exists []; split; [reflexivity | constructor] |]. rewrite lift_snd.
    match goal with |- context [snd (?M s)] => assert (L : lg (tool_ok a b) M) by (unfold rewrite_out; lk) end. apply L. }
  destruct X as (l & E & F). destruct (encrypt_payload e m s) as [[x | |] s1]; cbn [snd] in *; [| eauto ..].
  destruct (lgs_bundle e a b x s1) as (l' & E' & F'). exists (l' ++ l). rewrite E', E, app_assoc. split; [reflexivity | apply Forall_app; auto].
Qed.

(** an image asks for method [m] *)
Definition asks (m0 : manifest) (meth : string) : Prop := exists i, In i (mf_images m0) /\ In meth (im_convert i).
Lemma wants_summed : forall e c op l l1 meth, Forall2 (summed e c op) l l1 ->
  (existsb (fun i => wants i meth) l1 = true <-> exists i, In i l /\ In meth (im_convert i)).
Proof.
  intros e c op l l1 meth FL. assert (X : existsb (fun i => wants i meth) l1 = existsb (fun i => wants i meth) l).
  { induction FL as [| a b r r' Hab R IH]; [reflexivity |]. cbn [existsb]. rewrite IH. f_equal. unfold wants, summed in *.
    destruct (im_filename a); [destruct Hab as (n & _ & ->) | subst b]; reflexivity. }
  rewrite X, existsb_exists. unfold wants. split; intros (i & I & Hi); exists i; (split; [assumption |]);
    [apply existsb_exists in Hi as (x & Ix & Ex); apply String.eqb_eq in Ex; subst; assumption |
     apply existsb_exists; exists meth; split; [assumption | apply String.eqb_refl]].
Qed.

Lemma c62_tools_ok : forall e s s', s_out s = None -> create_bundle e s = (Ret true false, s') ->
  exists kf m0 calls, parse_manifest kf = Ok m0
    /\ (forall n, assoc "manifest.raucm" (s_root s) = Some (Reg n) -> e_parse e (s_cont s n) = Some kf)
    /\ s_log s' = calls ++ s_log s
    /\ forall c, In c calls ->
         let under_fakeroot b := b = true <-> (asks m0 "tar-extract" \/ asks m0 "composefs") /\ e_pseudo e = false /\ e_root e = false in
         match c with
         | KTar _ _ fake | KComposefs _ _ _ fake => under_fakeroot fake
         | KSquash src meta fake => src = [".rauc-workdir"] /\ (meta = true <-> asks m0 "tar-extract") /\ under_fakeroot fake
         | KFakeInit => under_fakeroot true
         | _ => True
         end.
Proof.
  intros e s s' O H. apply create_inv in H as (k & s1 & B & H); [| assumption].
  destruct (proj1 (body_flags _ _ _ _ _ B)) as [_ F]. rewrite (F eq_refl) in B, H. subst s1. clear F.
  rewrite body_eq in B. destruct (load_phase e s) as [[[[wd kf] m] |] t1] eqn:LP; [| discriminate].
  destruct (load_phase_inv _ _ _ _ _ _ LP) as (root1 & wd0 & m0 & n & -> & C1 & N1 & O1 & F1 & S1 & L1 & W1 & SR1 & OM & EP & PM & CI & CC & l & -> & FL).
  destruct (needs_fakeroot e (with_images m0 l)) as [nf meta] eqn:NF.
  destruct (fake_step e nf t1) as [[u |] t2] eqn:FS; [| discriminate].
  destruct (pack_phase e [WD] kf (with_images m0 l) meta nf t2) as [[m' |] t3] eqn:PP; [| discriminate].
  destruct (sign_phase e m' t3) as [[u' | |] t4] eqn:SP; try discriminate.
  destruct (rm_tree e [WD] t4) as [[[] |] t5] eqn:RM; [| discriminate]. injection B as <-.
  assert (P1 := lg_load e meta nf s). rewrite LP in P1. destruct P1 as (l1 & E1 & A1). cbn [snd] in E1.
  assert (P2 : exists l, s_log t2 = l ++ s_log t1 /\ Forall (tool_ok meta nf) l).
  { destruct nf; cbn in FS; [| injection FS as _ <-; exists []; split; [reflexivity | constructor]].
    destruct (a_ok _); [| discriminate]. injection FS as _ <-. exists [KFakeInit]. split; [reflexivity | repeat constructor]. }
  destruct P2 as (l2 & E2 & A2).
  assert (P3 := lg_pack e kf (with_images m0 l) meta nf t2). rewrite PP in P3. destruct P3 as (l3 & E3 & A3). cbn [snd] in E3.
  assert (P4 := lgs_phase e meta nf m' t3). rewrite SP in P4. destruct P4 as (l4 & E4 & A4). cbn [snd] in E4.
  assert (P5 := lg_rm e (tool_ok meta nf) [WD] Logic.I t4). rewrite RM in P5. destruct P5 as (l5 & E5 & A5). cbn [snd] in E5.
  assert (P6 : exists l, s_log (cleanup e nf t5) = l ++ s_log t5 /\ Forall (tool_ok meta nf) l).
  { destruct nf; [| exists []; split; [reflexivity | constructor]]. exists [KFakeRm]. cbn. destruct (a_ok _); (split; [reflexivity | repeat constructor]). }
  destruct P6 as (l6 & E6 & A6).
  exists kf, m0, (l6 ++ l5 ++ l4 ++ l3 ++ l2 ++ l1). split; [assumption |].
  split. { intros x A. assert (X := open_top _ _ _ root1 _ _ x L1 W1 OM). rewrite <- X; [assumption |].
           rewrite <- (sim_assoc _ _ _ _ S1); [assumption | reflexivity]. }
  split; [rewrite E6, E5, E4, E3, E2, E1, <- !app_assoc; reflexivity |].
  assert (AA : Forall (tool_ok meta nf) (l6 ++ l5 ++ l4 ++ l3 ++ l2 ++ l1)) by (rewrite !Forall_app; tauto).
  rewrite Forall_forall in AA.
  unfold needs_fakeroot in NF. injection NF as Nn Nm. cbn [with_images mf_images] in Nn, Nm.
  assert (W := fun meth => wants_summed _ _ _ _ _ meth FL).
  assert (Hm : meta = true <-> asks m0 "tar-extract") by (rewrite <- Nm; apply W).
  assert (Hn : nf = true <-> (asks m0 "tar-extract" \/ asks m0 "composefs") /\ e_pseudo e = false /\ e_root e = false).
  { assert (X : existsb (fun i => wants i "tar-extract" || wants i "composefs") l = existsb (fun i => wants i "tar-extract") l || existsb (fun i => wants i "composefs") l).
    { clear. induction l as [| i r IH]; [reflexivity |]. cbn [existsb]. rewrite IH. destruct (wants i "tar-extract"), (wants i "composefs"); cbn; rewrite ?orb_true_r; reflexivity. }
    rewrite <- Nn, X, !andb_true_iff, orb_true_iff, !negb_true_iff, (W "tar-extract"), (W "composefs"). unfold asks. tauto. }
  intros c Ic. cbv zeta. specialize (AA c Ic). destruct c; try exact Logic.I; cbn in AA.
  - rewrite AA in Hn. exact Hn.
  - rewrite AA. exact Hn.
  - rewrite AA. exact Hn.
  - destruct AA as (-> & -> & ->). auto.
Qed.

(** ** entries of the working directory *)
Definition ent (n : string) (s : st) : option node := match wdir s with Some d => assoc n d | None => None end.
Lemma fr_ent : forall A L (m : M A) n s y s', fr (out_of L) m -> ~ In n L -> hasw s -> m s = (Some y, s') -> ent n s' = ent n s /\ hasw s'.
Proof.
  intros A L m n s y s' F N [w W] H. destruct (F s) as [X _]. rewrite H in X. cbn [snd] in X. destruct (x_wd _ _ _ X _ W) as (w' & W' & S').
  unfold ent. rewrite W, W'. split; [| exists w'; assumption]. symmetry. eapply sim_assoc; [exact S' | apply out_of_not; assumption].
Qed.
Lemma fr_cont : forall A L (m : M A) s y s', fr (out_of L) m -> m s = (Some y, s') -> (forall i, i < s_next s -> s_cont s' i = s_cont s i) /\ s_next s <= s_next s'.
Proof. intros A L m s y s' F H. destruct (F s) as [X _]. rewrite H in X. split; apply X. Qed.

(** *** images that are converted and not kept are not in the bundle *)
Lemma convert_absent : forall e kf fake i s i' s', convert_image e kf [WD] fake i s = (Some i', s') -> hasw s ->
  hasw s' /\ forall n, ~ In n (touched_by i) ->
    (ent n s = None -> ent n s' = None) /\ (In n (dropped_by kf i) -> ent n s' = None).
Proof.
  intros e kf fake i s i' s' H D.
  assert (D' : hasw s') by (eapply (hasw_step _ _ _ _ _ _ (fr_convert e kf fake i _ (incl_refl _)) H D)).
  split; [assumption |]. intros n NT.
  destruct (in_dec string_dec n (dropped_by kf i)) as [ID | ND].
  2:{ split; [| tauto]. intro E. destruct (fr_ent _ _ _ n _ _ _ (fr_convert e kf fake i _ (incl_refl _)) ltac:(intro X; apply in_app_or in X; tauto) D H) as [X _]. congruence. }
  assert (G : ent n s' = None); [| auto].
  unfold dropped_by in ID. unfold convert_image in H. destruct (_ && _); [discriminate |]. unfold has_key in H at 1.
  destruct (im_filename i) as [f |] eqn:F; [| destruct ID]. destruct (kf_get kf (image_group i) "convert"); [| destruct ID]. cbn [negb] in H.
  destruct (existsb (String.eqb "keep") (im_convert i)) eqn:KE; [destruct ID |]. destruct ID as [<- | []]. cbv zeta in H.
  apply mbind_some in H as (u & s1 & _ & H). apply mbind_some in H as (ck & s2 & CM & H). apply mbind_some in H as (u2 & s3 & _ & H).
  assert (K : snd ck = false).
  { rewrite <- KE. clear - CM. revert s1 ck s2 CM. induction (im_convert i) as [| m r IH]; intros s ck s1 CM; cbn [convert_methods existsb] in *.
    - injection CM as <- _. reflexivity.
    - apply mbind_some in CM as (c & s2 & _ & CM). apply mbind_some in CM as (cr & s3 & CM & R).
      injection R as <- _. cbn [snd]. rewrite (IH _ _ _ CM). rewrite String.eqb_sym. reflexivity. }
  rewrite K in H. apply mbind_some in H as (u3 & s4 & U & H). injection H as _ <-. cbn [app] in U.
  apply mbind_some in U as (x & x' & Gt & U). injection Gt as <- <-.
  assert (Z : forall t, s_root t = s_root s3 -> ent f (put [WD; f] None t) = None).
  { intros t E. unfold ent, wdir, put, set_root. cbn [s_root tput tget]. rewrite E.
    destruct (assoc WD (s_root s3)) as [[| es | |] |] eqn:AW; rewrite ?AW; try reflexivity. rewrite assoc_set_eq. apply assoc_remove_eq. }
  destruct (tget (s_root s3) [WD; f]) as [[| | |] |]; try discriminate;
    (apply mbind_some in U as ([] & y & A & U); assert (Q := q_ask_ok e (KUnlink [WD; f]) s3); rewrite A in Q; cbn in Q; destruct Q as (Q & _);
     injection U as _ <-; apply Z; exact Q).
Qed.
Lemma each_absent : forall e kf fake n l s l' s', each_image (convert_image e kf [WD] fake) l s = (Some l', s') -> hasw s ->
  (forall i, In i l -> ~ In n (touched_by i)) ->
  hasw s' /\ (ent n s = None \/ (exists i, In i l /\ In n (dropped_by kf i)) -> ent n s' = None).
Proof.
  intros e kf fake n. induction l as [| i r IH]; intros s l' s' H D NT; cbn [each_image] in H.
  - injection H as _ <-. split; [assumption |]. intros [E | (i & [] & _)]. assumption.
  - apply mbind_some in H as (i' & s1 & C & H). apply mbind_some in H as (r' & s2 & R & H). injection H as _ <-.
    destruct (convert_absent _ _ _ _ _ _ _ C D) as [D1 X1]. destruct (X1 n (NT i (or_introl eq_refl))) as [Y1 Y2].
    destruct (IH _ _ _ R D1 ltac:(intros; apply NT; right; assumption)) as [D2 X2]. split; [assumption |].
    intros [E | (i0 & [-> | I0] & Hd)]; apply X2; [left; auto | left; auto | right; eauto].
Qed.
Lemma summed_touched_by : forall e c op l l1, Forall2 (summed e c op) l l1 -> forall kf n,
  ((exists i, In i l1 /\ In n (touched_by i)) <-> (exists i, In i l /\ In n (touched_by i)))
  /\ ((exists i, In i l1 /\ In n (dropped_by kf i)) <-> (exists i, In i l /\ In n (dropped_by kf i))).
Proof.
  intros e c op l l1 FL kf n. induction FL as [| a b r r' Hab R IH].
  - split; split; intros (i & [] & _).
  - assert (E : touched_by b = touched_by a /\ dropped_by kf b = dropped_by kf a).
    { unfold summed in Hab. destruct a. cbn in Hab. destruct im_filename; [destruct Hab as (k & _ & ->) | subst b]; split; reflexivity. }
    destruct E as [E1 E2]. destruct IH as [[I1 I2] [I3 I4]].
    split; split; intros (i & [-> | I] & Hn).
    + exists a. split; [left; reflexivity | congruence].
    + destruct I1 as (x & Ix & Hx); [eauto |]. exists x. split; [right; assumption | assumption].
    + exists b. split; [left; reflexivity | congruence].
    + destruct I2 as (x & Ix & Hx); [eauto |]. exists x. split; [right; assumption | assumption].
    + exists a. split; [left; reflexivity | congruence].
    + destruct I3 as (x & Ix & Hx); [eauto |]. exists x. split; [right; assumption | assumption].
    + exists b. split; [left; reflexivity | congruence].
    + destruct I4 as (x & Ix & Hx); [eauto |]. exists x. split; [right; assumption | assumption].
Qed.

Lemma c62_dropped_ok : forall e s s' o d c meta, s_out s = None -> create_bundle e s = (Ret true false, s') ->
  s_out s' = Some o -> payload o = Some (d, c, meta) ->
  exists kf m0, parse_manifest kf = Ok m0
    /\ (forall n, assoc "manifest.raucm" (s_root s) = Some (Reg n) -> e_parse e (s_cont s n) = Some kf)
    /\ forall i f, In i (mf_images m0) -> im_filename i = Some f -> im_convert i <> [] -> ~ In "keep" (im_convert i) ->
         f <> "manifest.raucm" -> (forall j, In j (mf_images m0) -> ~ In f (touched_by j)) -> assoc f d = None.
Proof.
  intros e s s' o0 d0 c0 meta0 O H OE PE.
  destruct (success_inv _ _ _ O H) as (t1 & t2 & t3 & kf & m & root1 & wd0 & m0 & l & nf & meta & u & t4 & t5 & m' & d & j & o & ms &
    LP & NF & FS & PP & RM & -> & C2 & N2 & S1 & L1 & W1 & W2 & PM & CI & CC & (n & OM & EP) & -> & FL & W3 & SD & J1 & J2 & CT & -> & Z1 & Z2 & Z3 & Z4 & Z5 & RT).
  rewrite Z1 in OE. injection OE as <-. rewrite (layers_payload _ _ _ _ _ _ Z2) in PE. injection PE as <- <- <-.
  exists kf, m0. split; [assumption |].
  split. { intros k A. assert (X := open_top _ _ _ root1 _ _ k L1 W1 OM). rewrite <- X; [assumption |].
           rewrite <- (sim_assoc _ _ _ _ S1); [assumption | reflexivity]. }
  unfold pack_phase in PP. apply mbind_some in PP as ([] & q1 & G & PP).
  assert (D1 : hasw q1) by (eapply (hasw_step _ _ _ _ _ _ (fr_gen e kf (with_images m0 l)) G); exists wd0; exact W2).
  apply mbind_some in PP as (l2 & q2 & C & PP). cbv zeta in PP.
  apply mbind_some in PP as ([] & q3 & SV & PP). apply mbind_some in PP as ([] & q4 & SQ & PP). injection PP as PPm <-.
  intros i f I F NE NK NM NT. cbn [with_images mf_images] in *.
  destruct (summed_touched_by _ _ _ _ _ FL kf f) as [[T1 _] [_ T4]].
  destruct (each_absent _ _ _ f _ _ _ _ C D1) as [D2 X].
  { intros x Ix Hx. destruct T1 as (y & Iy & Hy); [eauto |]. exact (NT y Iy Hy). }
  assert (E2 : ent f q2 = None).
  { apply X. right. apply T4. exists i. split; [assumption |]. unfold dropped_by. rewrite F.
    assert (PK := parse_convert_key _ _ _ PM I NE). destruct (kf_get kf (image_group i) "convert"); [| discriminate].
    destruct (existsb (String.eqb "keep") (im_convert i)) eqn:KE; [| left; reflexivity].
    apply existsb_exists in KE as (x & Ix & Ex). apply String.eqb_eq in Ex. subst x. contradiction. }
  cbn [app] in SV.
  destruct (fr_ent _ [MF] _ f _ _ _ (fr_set_contents e (out_of [MF]) MF [] _ (out_of_in [MF] MF (or_introl eq_refl))) ltac:(intros [Y | []]; apply NM; rewrite <- Y; reflexivity) D2 SV) as [E3 _].
  assert (R4 : s_root q4 = s_root q3).
  { clear - SQ. apply mbind_some in SQ as (x & x' & Gt & Q). injection Gt as <- <-. destruct (s_out q3); [discriminate |].
    apply mbind_some in Q as (a & x & A & Q). injection A as <- <-. destruct (a_ok _); [| discriminate].
    destruct (tget (s_root q3) [WD]) as [[| es | |] |]; try discriminate. injection Q as <-. reflexivity. }
  unfold ent, wdir in *. rewrite R4 in W3. rewrite W3, E2 in E3. exact E3.
Qed.
