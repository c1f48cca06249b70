(** Proofs for C63: the directory for temporary files; the commands; shared files. *)
From Verif Require Import Base BaseLemmas KeyFile KeyFileLemmas Image Manifest BundleCreate BundleCreateSpec BundleCreateLink BundleCreateFrame
  BundleCreateProofs BundleCreateRun BundleCreateOut BundleCreateDone BundleCreateMore ShellWords CasyncConvert CasyncConvertSpec CasyncConvertProofs CasyncConvertRun CasyncConvertEnd CasyncConvertDone.

(** [m] changes nothing in the directory for temporary files but [t] and new "arch-..." directories *)
Definition fits (t : string) (r r' : dir) : Prop :=
  forall n, n <> t -> assoc n r' = assoc n r \/ (assoc n r = None /\ has_prefix "arch-" n = true).
Definition fr {A} (t : string) (m : M A) : Prop := forall s, fits t (s_root s) (s_root (snd (m s))).

Lemma fits_refl : forall t r, fits t r r. Proof. intros t r n _. auto. Qed.
Lemma fits_trans : forall t a b c, fits t a b -> fits t b c -> fits t a c.
Proof. intros t a b c H K n N. destruct (H n N) as [E | [E P]]; destruct (K n N) as [E' | [E' P']]; try (right; split; congruence). left. congruence. Qed.
Lemma fits_put : forall t p x s, fits t (s_root s) (s_root (put (t :: p) x s)).
Proof.
  intros t p x s n N. left. unfold put, set_root. cbn [s_root tput]. destruct p as [| q p].
  - destruct x; [rewrite assoc_set_neq | rewrite assoc_remove_neq]; congruence.
  - destruct (assoc t (s_root s)) as [[| d | |] |]; try reflexivity. rewrite assoc_set_neq; congruence.
Qed.
Lemma fr_same : forall A t (m : M A), (forall s, s_root (snd (m s)) = s_root s) -> fr t m.
Proof. intros A t m H s. rewrite H. apply fits_refl. Qed.
Lemma fr_bind : forall A B t (m : M A) (f : A -> M B), fr t m -> (forall x, fr t (f x)) -> fr t (mbind m f).
Proof.
  intros A B t m f H K s. assert (X := H s). unfold mbind. destruct (m s) as [[x |] s1]; cbn [snd] in *; [| assumption].
  eapply fits_trans; [exact X | apply K].
Qed.
Lemma fr_ret : forall A t (x : A), fr t (ret x). Proof. intros. apply fr_same. reflexivity. Qed.
Lemma fr_fail : forall A t, fr t (@fail A). Proof. intros. apply fr_same. reflexivity. Qed.
Lemma fr_guard : forall t b, fr t (guard b). Proof. intros. apply fr_same. intro s. destruct b; reflexivity. Qed.
Lemma fr_get : forall t, fr t get. Proof. intros. apply fr_same. reflexivity. Qed.
Lemma fr_ask : forall t e k, fr t (ask e k). Proof. intros. apply fr_same. reflexivity. Qed.
Lemma fr_ask_ok : forall t e k, fr t (ask_ok e k). Proof. intros. apply fr_bind; [apply fr_ask | intro; apply fr_guard]. Qed.
Lemma fr_put : forall t p x, fr t (modify (put (t :: p) x)). Proof. intros t p x s. apply fits_put. Qed.
Lemma fr_out : forall t o, fr t (modify (set_out o)). Proof. intros. apply fr_same. reflexivity. Qed.
Lemma fr_new : forall t p x (c : st -> nat -> cont) (k : st -> nat),
  fr t (modify (fun s => mkSt (tput (s_root s) (t :: p) (x s)) (c s) (k s) (s_out s) (s_fake s) (s_log s))).
Proof. intros t p x c k s. exact (fits_put t p (x s) s). Qed.
Lemma fr_set : forall t e p c, fr t (set_contents e (t :: p) c).
Proof.
  intros. apply fr_bind; [apply fr_get | intro s]. destruct (tget (s_root s) (t :: p)) as [[| | |] |]; try apply fr_fail;
    (apply fr_bind; [apply fr_ask_ok | intro; apply fr_new]).
Qed.
Lemma fr_squash : forall t e p m f, fr t (mksquashfs e p m f).
Proof.
  intros. apply fr_bind; [apply fr_get | intro s]. destruct (s_out s); [apply fr_fail |]. apply fr_bind; [apply fr_ask | intro a].
  destruct (a_ok a); [destruct (tget _ _) as [[| | |] |]; try apply fr_fail; apply fr_out | apply fr_bind; [apply fr_out | intro; apply fr_fail]].
Qed.
Lemma fr_tmp : forall t e, has_prefix "rauc-casync-" t = true -> fr t (make_tmp e "arch-").
Proof.
  intros t e PT s. destruct (make_tmp e "arch-" s) as [[n |] s'] eqn:T; cbn [snd].
  - apply make_tmp_inv in T as (PA & F & R & _). rewrite R. intros x Nx. destruct (String.eqb_spec x n) as [-> | Nn]; [right; auto | left].
    unfold put, set_root. cbn [s_root tput]. rewrite assoc_set_neq; congruence.
  - unfold make_tmp, mbind, ask in T. cbn in T. destruct (assoc _ _); [injection T as <-; cbn; apply fits_refl |].
    destruct (a_ok _); [discriminate | injection T as <-; cbn; apply fits_refl].
Qed.
Lemma fr_args : forall t o, fr t (parse_args o).
Proof. intros. unfold parse_args. destruct (o_args o) as [[|] |]; [apply fr_ret | apply fr_fail | apply fr_ret]. Qed.
Lemma fr_tool : forall e argv t f idx, fr t (run_tool e argv t f idx).
Proof.
  intros. apply fr_bind; [apply fr_ask | intro a]. destruct (has_char "/" f); [apply fr_guard |]. apply fr_bind; [apply fr_get | intro s].
  destruct (tget (s_root s) [t; "content"]) as [[| es | |] |]; try apply fr_fail.
  destruct (if a_ok a then _ else _), (assoc idx es) as [[| | |] |]; try apply fr_fail; try apply fr_new; (apply fr_bind; [apply fr_put | intro; apply fr_fail]).
Qed.
Lemma fr_blob : forall e o t f idx, fr t (make_blob e o t f idx).
Proof.
  intros. apply fr_bind; [destruct (o_desync o); [apply fr_ask_ok | apply fr_ret] | intro]. apply fr_bind; [apply fr_args | intro; apply fr_tool].
Qed.
Lemma fr_arch : forall e o t f idx, has_prefix "rauc-casync-" t = true -> fr t (make_arch e o t f idx).
Proof.
  intros. unfold make_arch. destruct (o_desync o); [apply fr_blob |]. apply fr_bind; [apply fr_tmp; assumption | intro]. apply fr_bind; [apply fr_args | intro; apply fr_tool].
Qed.
Lemma fr_one : forall e o t i, has_prefix "rauc-casync-" t = true -> fr t (convert_one e o t i).
Proof.
  intros. unfold convert_one. destruct (im_filename i) as [f |]; [| apply fr_ret]. destruct (existsb _ _); [apply fr_ret |].
  apply fr_bind; [destruct (is_archive f); [apply fr_arch; assumption | apply fr_blob] | intro]. apply fr_bind; [apply fr_ask | intro a].
  apply fr_bind; [destruct (_ && _); [apply fr_put | apply fr_ret] | intro; apply fr_ret].
Qed.
Lemma fr_each : forall t f l, (forall i, fr t (f i)) -> fr t (each_image f l).
Proof.
  induction l as [| i r IH]; intro H; cbn [each_image]; [apply fr_ret |]. apply fr_bind; [apply H | intro]. apply fr_bind; [apply IH; assumption | intro; apply fr_ret].
Qed.
Lemma fr_content : forall e o b t, has_prefix "rauc-casync-" t = true -> fr t (convert_content e o b t).
Proof.
  intros e o b t PT. apply fr_bind.
  { apply fr_bind; [apply fr_ask_ok | intro]. apply fr_bind; [apply fr_ask | intro a]. destruct (a_ok a); [apply fr_put | apply fr_bind; [apply fr_put | intro; apply fr_fail]]. }
  intro. apply fr_bind.
  { apply fr_bind; [apply fr_get | intro s]. apply fr_bind; [apply fr_ask | intro a]. destruct (tget _ _) as [[| es | |] |]; try apply fr_fail.
    destruct (source es MF a s); [| apply fr_fail]. apply fr_bind; [apply fr_guard | intro]. destruct (e_parse e c); [| apply fr_fail].
    destruct (parse_manifest k); [apply fr_ret | apply fr_fail | apply fr_fail]. }
  intro m. apply fr_bind; [apply fr_each; intro; apply fr_one; assumption | intro l]. apply fr_bind; [apply fr_set | intro]. apply fr_bind; [apply fr_squash | intro; apply fr_ret].
Qed.
Lemma sign_root : forall e m s, s_root (snd (sign_bundle e m s)) = s_root s.
Proof.
  assert (L : forall A (q : M A) s, (forall s, s_root (snd (q s)) = s_root s) -> s_root (snd (lift q s)) = s_root s).
  { intros A q s H. assert (X := H s). unfold lift. destruct (q s) as [[|] ?]; exact X. }
  assert (RW : forall e k f s, s_root (snd (rewrite_out e k f s)) = s_root s).
  { intros e k f s. unfold rewrite_out, mbind, ask. cbn. destruct (a_ok _); reflexivity. }
  assert (SG : forall e m s, s_root (snd (sign e m s)) = s_root s).
  { intros e m s. unfold sign. match goal with |- s_root (snd ((match ?X with _ => _ end) _)) = _ => destruct X as [mm | |]; try reflexivity end.
    unfold mbind. assert (X := RW e KSign (fun _ o => OSigned o mm) s). destruct (rewrite_out _ _ _ s) as [[|] s1]; exact X. }
  intros e m s. unfold sign_bundle. destruct (bformat_eqb _ _); [apply L; intro; apply SG |].
  assert (X : s_root (snd (create_verity e m s)) = s_root s).
  { unfold create_verity. assert (A : s_root (snd (lift (ask_ok e KVerityOpen) s)) = s_root s) by (apply L; intro x; unfold ask_ok, mbind, ask; cbn; destruct (a_ok _); reflexivity).
    destruct (lift (ask_ok e KVerityOpen) s) as [[| |] s1]; cbn [snd] in A; try exact A.
    destruct (mf_verity_salt m); [exact A |]. destruct (mf_verity_hash m); [exact A |]. destruct (mf_verity_size m =? 0)%N; [| exact A].
    rewrite L; [exact A |]. intro xx. unfold mbind. match goal with |- context [rewrite_out ?a ?b ?c xx] => assert (X := RW a b c xx); destruct (rewrite_out a b c xx) as [[|] ?] end; exact X. }
  destruct (create_verity e m s) as [[m1 | |] s1]; cbn [snd] in *; try exact X. rewrite L; [exact X | intro; apply SG].
Qed.

Lemma fr_rm : forall t e, fr t (rm_tree e [t]).
Proof. intros. apply fr_bind; [apply fr_ask | intro a]. destruct (a_ok a); [apply fr_put | apply fr_bind; [apply fr_put | intro; apply fr_fail]]. Qed.

Lemma convert_fits : forall e o b s, s_root (snd (convert_bundle e o b s)) = s_root s \/ exists t, has_prefix "rauc-casync-" t = true /\ assoc t (s_root s) = None /\
  fits t (s_root s) (s_root (snd (convert_bundle e o b s))) /\
  (assoc t (s_root (snd (convert_bundle e o b s))) = None \/
     exists l, s_log (snd (convert_bundle e o b s)) = KRmTree [t] :: l /\ a_ok (e_ans e (List.length l)) = false).
Proof.
  intros e o b s. unfold convert_bundle. destruct (make_tmp e "rauc-casync-" s) as [[t |] s1] eqn:T.
  2: { left. cbn [snd]. unfold make_tmp, mbind, ask in T. cbn in T.
       destruct (assoc _ _); [injection T as <-; reflexivity |]. destruct (a_ok _); [discriminate | injection T as <-; reflexivity]. }
  right. apply make_tmp_inv in T as (PT & F & R & _). exists t. split; [assumption |]. split; [assumption |].
  assert (X1 : fits t (s_root s) (s_root s1)) by (rewrite R; exact (fits_put t [] (Some (Dir [])) s)).
  assert (X2 := fr_content e o b t PT s1).
  assert (W : forall (r : fin unit) s3, r <> FAbort -> fits t (s_root s) (s_root s3) ->
    let z := match r with FAbort => (FAbort, s3) | _ => (r, snd (rm_tree e [t] s3)) end in
    fits t (s_root s) (s_root (snd z)) /\ (assoc t (s_root (snd z)) = None \/ exists l, s_log (snd z) = KRmTree [t] :: l /\ a_ok (e_ans e (List.length l)) = false)).
  { intros r s3 NA X3 z. assert (Z : snd z = snd (rm_tree e [t] s3)) by (unfold z; destruct r; [reflexivity | reflexivity | congruence]).
    rewrite Z. clear z Z. split; [eapply fits_trans; [exact X3 | apply fr_rm] |]. unfold rm_tree, mbind, ask. cbn [fst snd]. destruct (a_ok (e_ans e (List.length (s_log s3)))) eqn:OK; cbn [modify fst snd].
    - left. unfold put, set_root. cbn [s_root tput]. apply assoc_remove_eq.
    - right. exists (s_log s3). split; [reflexivity | assumption]. }
  destruct (convert_content e o b t s1) as [[m |] s2] eqn:CC; cbn [snd] in X2.
  - apply convert_content_inv in CC as (m0 & l & _ & _ & _ & _ & -> & _); [| assumption].
    assert (NA := sign_no_abort e (with_images (without_verity m0) l) s2 eq_refl eq_refl eq_refl).
    assert (SR := sign_root e (with_images (without_verity m0) l) s2).
    destruct (sign_bundle e (with_images (without_verity m0) l) s2) as [r s3]; cbn [fst snd] in *.
    apply W; [assumption |]. rewrite SR. eapply fits_trans; eassumption.
  - apply (W FFail s2); [discriminate |]. eapply fits_trans; eassumption.
Qed.

(** what was in the directory for temporary files stays; what is new was made by mkdtemp *)
Lemma c63_tmp_ok : forall e o b s r s' n, s_out s = None -> create_casync e o b s = (r, s') ->
  assoc n (s_root s') = assoc n (s_root s)
  \/ (assoc n (s_root s) = None
      /\ (has_prefix "arch-" n = true
          \/ (has_prefix "rauc-casync-" n = true
              /\ exists l1 l2, s_log s' = l1 ++ KRmTree [n] :: l2 /\ a_ok (e_ans e (List.length l2)) = false))).
Proof.
  intros e o b s r s' n O H.
  assert (W : forall s0 x s1, s_root s0 = s_root s -> convert_bundle e o b s0 = (x, s1) ->
    assoc n (s_root s1) = assoc n (s_root s) \/ (assoc n (s_root s) = None /\ (has_prefix "arch-" n = true
          \/ (has_prefix "rauc-casync-" n = true /\ exists l1 l2, s_log s1 = l1 ++ KRmTree [n] :: l2 /\ a_ok (e_ans e (List.length l2)) = false)))).
  { intros s0 x s1 RE C. destruct (convert_fits e o b s0) as [E | (t & PT & FT & F & G)]; rewrite C in *; cbn [snd] in *; rewrite RE in *; [left; congruence |].
    destruct (String.eqb_spec n t) as [-> | N]; [| destruct (F n N) as [X | [X Y]]; auto].
    destruct G as [G | (l & L & A)]; [left; congruence |]. right. split; [assumption |]. right. split; [assumption |]. exists [], l. auto. }
  apply casync_inv in H as [(-> & s1 & u & -> & C) | (-> & s1 & Q & E)]; [eapply W; [| exact C]; reflexivity | | assumption].
  assert (X : assoc n (s_root s1) = assoc n (s_root s) \/ (assoc n (s_root s) = None /\ (has_prefix "arch-" n = true
          \/ (has_prefix "rauc-casync-" n = true /\ exists l1 l2, s_log s1 = l1 ++ KRmTree [n] :: l2 /\ a_ok (e_ans e (List.length l2)) = false)))).
  { destruct Q as [Q | (s0 & Q & C)].
    - left. unfold ask_ok, mbind, ask in Q. cbn in Q. destruct (a_ok _); [discriminate | injection Q as <-; reflexivity].
    - eapply W; [| exact C]. apply ask_ok_inv in Q. subst s0. reflexivity. }
  destruct E as [(_ & ->) | (_ & RE & LE & _)]; [assumption |]. rewrite RE.
  destruct X as [X | (X & [Y | (Y & l1 & l2 & L & A)])]; auto. right. split; [assumption |]. right. split; [assumption |]. exists (KUnlinkOut :: l1), l2. rewrite LE, L. auto.
Qed.
