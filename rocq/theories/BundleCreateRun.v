(** Proofs for C62: whole runs. *)
From Verif Require Import Base KeyFile KeyFileLemmas Image Manifest BundleCreate BundleCreateSpec BundleCreateLink BundleCreateFrame
  BundleCreateProofs.

(** the inputs are as before *)
Record inp (s s' : st) : Prop := mkInp {
  i_root : sim notwd (s_root s) (s_root s');
  i_next : s_next s <= s_next s';
  i_cont : forall i, i < s_next s -> s_cont s' i = s_cont s i
}.
Lemma inp_refl : forall s, inp s s. Proof. intro. split; auto using sim_refl. Qed.
Lemma inp_trans : forall a b c, inp a b -> inp b c -> inp a c.
Proof. intros a b c [R1 N1 C1] [R2 N2 C2]. split; [eapply sim_trans; eassumption | lia | intros i L; rewrite C2 by lia; auto]. Qed.
Lemma ext_inp : forall k s s', ext k s s' -> inp s s'.
Proof. intros k s s' [R N C _]. split; assumption. Qed.
Lemma inp_same : forall s s', s_root s' = s_root s -> s_cont s' = s_cont s -> s_next s' = s_next s -> inp s s'.
Proof. intros. apply (ext_inp (fun _ => true)). apply ext_same; assumption. Qed.

Definition ki {A} (m : M A) : Prop := forall s, inp s (snd (m s)).
Lemma ki_fr : forall A k (m : M A), fr k m -> ki m.
Proof. intros A k m H s. eapply ext_inp, H. Qed.
Lemma ki_bind : forall A B (m : M A) (f : A -> M B), ki m -> (forall x, ki (f x)) -> ki (mbind m f).
Proof.
  intros A B m f Hm Hf s. unfold mbind. specialize (Hm s). destruct (m s) as [[x |] s1]; cbn [snd] in *; [| assumption].
  eapply inp_trans; [eassumption | apply Hf].
Qed.
Lemma ki_ret : forall A (x : A), ki (ret x). Proof. intros. apply (ki_fr _ (fun _ => true)), fr_ret. Qed.
Lemma ki_fail : forall A, ki (@fail A). Proof. intros. apply (ki_fr _ (fun _ => true)), fr_fail. Qed.
Lemma ki_guard : forall b, ki (guard b). Proof. intros. apply (ki_fr _ (fun _ => true)), fr_guard. Qed.
Lemma ki_get : ki get. Proof. apply (ki_fr _ (fun _ => true)), fr_get. Qed.
Lemma ki_ask : forall e c, ki (ask e c). Proof. intros. apply (ki_fr _ (fun _ => true)), fr_ask. Qed.
Lemma ki_ask_ok : forall e c, ki (ask_ok e c). Proof. intros. apply (ki_fr _ (fun _ => true)), fr_ask_ok. Qed.
Lemma ki_put : forall p x, ki (modify (put (WD :: p) x)).
Proof. intros p x s. unfold put, set_root. split; cbn; [apply sim_tput; reflexivity | lia | reflexivity]. Qed.
Lemma ki_rm : forall e p, ki (rm_tree e (WD :: p)).
Proof.
  intros e p. apply ki_bind; [apply ki_ask | intro a]. destruct (a_ok a); [apply ki_put |].
  apply ki_bind; [apply ki_put | intro; apply ki_fail].
Qed.
Lemma ki_mkdir : forall e p, ki (mkdir e (WD :: p)).
Proof.
  intros e p. apply ki_bind; [apply ki_get | intro s]. destruct (tget (s_root s) (WD :: p)); [apply ki_fail |].
  apply ki_bind; [apply ki_ask_ok | intro; apply ki_put].
Qed.
Lemma ki_out : forall f, ki (modify (fun s => set_out (f s) s)).
Proof. intros f s. apply inp_same; reflexivity. Qed.

Lemma ki_prepare : forall e, ki (prepare_workdir e).
Proof.
  intro e. unfold prepare_workdir. apply ki_bind; [apply ki_get | intro s]. apply ki_bind; [| intro].
  { destruct (tget (s_root s) [WD]) as [[| | |] |]; try apply ki_rm; [| apply ki_ret].
    apply ki_bind; [apply ki_ask | intro a]. destruct (a_ok a); [apply ki_rm | apply ki_ret]. }
  apply ki_bind; [apply ki_mkdir | intro]. apply ki_bind; [apply ki_get | intro s1].
  destruct (link_any _ _ _ _ _ _ _) as [ok es]. apply ki_bind; [apply ki_put | intro].
  apply ki_bind; [apply ki_guard | intro; apply ki_ret].
Qed.
Lemma prepare_wd : forall e s p s', prepare_workdir e s = (Some p, s') -> p = [WD].
Proof.
  intros e s p s' H. unfold prepare_workdir in H.
  repeat (apply mbind_some in H as (? & ? & _ & H); try (destruct (link_any _ _ _ _ _ _ _) as [ok es])).
  injection H as <- _. reflexivity.
Qed.
Lemma ki_load : forall e d, ki (load_manifest e d).
Proof.
  intros e d. apply ki_bind; [apply ki_get | intro s]. destruct (open_in e d MF s); [| apply ki_fail].
  apply ki_bind; [apply ki_ask_ok | intro]. destruct (e_parse e _) as [kf |]; [| apply ki_fail].
  destruct (parse_manifest kf); [apply ki_ret | apply ki_fail ..].
Qed.
Lemma fr_sync : forall e k m d, fr k (sync_manifest e m d).
Proof.
  intros e k m d. apply fr_bind; [apply fr_get | intro s]. apply fr_bind; [apply fr_guard | intro].
  apply fr_bind; [apply fr_guard | intro]. apply fr_bind; [apply fr_each; intros; apply fr_checksum | intro; apply fr_ret].
Qed.
Lemma ki_load_phase : forall e, ki (load_phase e).
Proof.
  intro e. apply ki_bind; [apply ki_prepare | intro wd]. apply ki_bind; [apply ki_load | intro km].
  apply ki_bind; [apply ki_guard | intro]. apply ki_bind; [apply ki_guard | intro].
  apply ki_bind; [apply (ki_fr _ (fun _ => true)), fr_sync | intro; apply ki_ret].
Qed.
Lemma load_phase_wd : forall e s wd kf m s', load_phase e s = (Some (wd, kf, m), s') -> wd = [WD].
Proof.
  intros e s wd kf m s' H. apply mbind_some in H as (w & s1 & P & H). apply prepare_wd in P. subst w.
  repeat (apply mbind_some in H as (? & ? & _ & H)). injection H as <- _ _ _. reflexivity.
Qed.
Lemma ki_squash : forall e p a b, ki (mksquashfs e p a b).
Proof.
  intros e p a b. apply ki_bind; [apply ki_get | intro s]. destruct (s_out s); [apply ki_fail |].
  apply ki_bind; [apply ki_ask | intro x]. destruct (a_ok x).
  - destruct (tget (s_root s) p) as [[| | |] |]; try apply ki_fail. apply (ki_out (fun _ => _)).
  - apply ki_bind; [apply (ki_out (fun _ => _)) | intro; apply ki_fail].
Qed.

(** names the packing phase may touch *)
Lemma touched_incl : forall kf m i, In i (mf_images m) -> incl (touched_by i ++ dropped_by kf i) (touched kf m).
Proof. intros kf m i I x X. right. apply in_flat_map. exists i. split; assumption. Qed.

Lemma fr_images : forall e kf m fake, fr (out_of (touched kf m)) (each_image (convert_image e kf [WD] fake) (mf_images m)).
Proof. intros. apply fr_each. intros i I. apply fr_convert. apply touched_incl. assumption. Qed.
Lemma fr_gen : forall e kf m, fr (out_of (touched kf m)) (generate_adaptive e [WD] (mf_images m)).
Proof. intros. apply fr_generate. intros i I x X. apply (touched_incl kf m i I). apply in_or_app. left. assumption. Qed.
Lemma fr_save : forall e kf m c, fr (out_of (touched kf m)) (set_contents e [WD; MF] c).
Proof. intros. apply fr_set_contents. apply out_of_in. left. reflexivity. Qed.

Lemma ki_pack : forall e kf m meta fake, ki (pack_phase e [WD] kf m meta fake).
Proof.
  intros. unfold pack_phase. apply ki_bind; [eapply ki_fr, (fr_gen e kf m) | intro].
  apply ki_bind; [eapply ki_fr, fr_images | intro l]. apply ki_bind; [eapply ki_fr, (fr_save e kf m) | intro].
  apply ki_bind; [apply ki_squash | intro; apply ki_ret].
Qed.
Lemma ki_rewrite : forall e k f, ki (rewrite_out e k f).
Proof.
  intros. apply ki_bind; [apply ki_ask | intro a]. apply ki_bind; [apply ki_get | intro s]. destruct (a_ok a).
  - apply ki_bind; [apply (ki_out (fun _ => _)) | intro; apply ki_ret].
  - apply ki_bind; [apply (ki_out (fun _ => _)) | intro; apply ki_fail].
Qed.
Lemma lift_snd : forall A (m : M A) s, snd (lift m s) = snd (m s).
Proof. intros A m s. unfold lift. destruct (m s) as [[x |] s']; reflexivity. Qed.
Lemma ki_sign : forall e m, ki (sign e m).
Proof.
  intros e m. unfold sign. destruct (if bformat_eqb (mf_format m) F_PLAIN then _ else _); [| apply ki_fail ..].
  apply ki_bind; [apply ki_rewrite | intro; apply ki_ret].
Qed.
Lemma inp_verity : forall e m s, inp s (snd (create_verity e m s)).
Proof.
  intros e m s. unfold create_verity.
  assert (X := lift_snd _ (ask_ok e KVerityOpen) s). assert (Y := ki_ask_ok e KVerityOpen s).
  destruct (lift (ask_ok e KVerityOpen) s) as [[| |] s1]; cbn [snd] in X; try (rewrite X; assumption).
  rewrite <- X in Y. destruct (mf_verity_salt m), (mf_verity_hash m); cbn [snd]; try assumption.
  destruct (mf_verity_size m =? 0)%N; cbn [snd]; [| assumption]. rewrite lift_snd. eapply inp_trans; [exact Y |].
  apply ki_bind; [apply ki_rewrite | intro; apply ki_ret].
Qed.
Lemma inp_sign_bundle : forall e m s, inp s (snd (sign_bundle e m s)).
Proof.
  intros e m s. unfold sign_bundle. destruct (bformat_eqb (mf_format m) F_PLAIN); [rewrite lift_snd; apply ki_sign |].
  assert (X := inp_verity e m s). destruct (create_verity e m s) as [[| |] s1]; cbn [snd] in *; try assumption.
  rewrite lift_snd. eapply inp_trans; [exact X | apply ki_sign].
Qed.
Lemma inp_sign_phase : forall e m s, inp s (snd (sign_phase e m s)).
Proof.
  intros e m s. unfold sign_phase. destruct (bformat_eqb (mf_format m) F_CRYPT); [| apply inp_sign_bundle].
  assert (X : inp s (snd (encrypt_payload e m s))).
  { unfold encrypt_payload. destruct (mf_crypt_key m); [apply inp_refl |]. rewrite lift_snd.
    apply ki_bind; [apply ki_rewrite | intro; apply ki_ret]. }
  destruct (encrypt_payload e m s) as [[| |] s1]; cbn [snd] in *; try assumption.
  eapply inp_trans; [exact X | apply inp_sign_bundle].
Qed.

Definition fake_init (e : env) : M unit :=
  let* a := ask e KFakeInit in
  if a_ok a then modify (set_fake true)
  else (modify (fun s => match a_left a with Some _ => set_fake true s | None => s end) ;; fail).
Definition fake_step (e : env) (nf : bool) : M unit := if nf then fake_init e else ret tt.
Definition cleanup (e : env) (nf : bool) (s : st) : st :=
  if nf then match ask e KFakeRm s with
             | (Some a, s) => if a_ok a then set_fake false s else s
             | (None, s) => s
             end else s.
Lemma body_eq : forall e s, create_body e s =
  match load_phase e s with
  | (None, s) => (Ret false true, false, s)
  | (Some (wd, kf, m), s) =>
      let (nf, meta) := needs_fakeroot e m in
      match fake_step e nf s with
      | (None, s) => (Ret true true, false, s)
      | (Some _, s) =>
          match pack_phase e wd kf m meta nf s with
          | (None, s) => (Ret false true, false, cleanup e nf s)
          | (Some m, s) =>
              match sign_phase e m s with
              | (FAbort, s) => (Aborted, false, s)
              | (FFail, s) => (Ret false true, false, cleanup e nf s)
              | (FVal _, s) =>
                  match rm_tree e wd s with
                  | (None, s) => (Ret true true, false, cleanup e nf s)
                  | (Some _, s) => (Ret true false, true, cleanup e nf s)
                  end
              end
          end
      end
  end.
Proof. reflexivity. Qed.
Lemma fr_fake : forall e k nf, fr k (fake_step e nf).
Proof.
  intros e k nf. destruct nf; [| apply fr_ret]. apply fr_bind; [apply fr_ask | intro a].
  assert (X : forall f : st -> st, (forall s, s_root (f s) = s_root s /\ s_cont (f s) = s_cont s /\ s_next (f s) = s_next s /\ s_out (f s) = s_out s) -> fr k (modify f)).
  { intros f H s. destruct (H s) as (H1 & H2 & H3 & H4). split; [apply ext_same; assumption | assumption]. }
  destruct (a_ok a); [apply X; intro; repeat split |]. apply fr_bind; [| intro; apply fr_fail].
  apply X. intro s. destruct (a_left a); repeat split.
Qed.
Lemma cleanup_same : forall e nf s, s_root (cleanup e nf s) = s_root s /\ s_cont (cleanup e nf s) = s_cont s
  /\ s_next (cleanup e nf s) = s_next s /\ s_out (cleanup e nf s) = s_out s.
Proof. intros e nf s. unfold cleanup. destruct nf; [| auto]. cbn. destruct (a_ok _); repeat split. Qed.
Lemma inp_cleanup : forall e nf s, inp s (cleanup e nf s).
Proof. intros. destruct (cleanup_same e nf s) as (A & B & C & _). apply inp_same; assumption. Qed.

Lemma inp_body : forall e s, inp s (snd (create_body e s)).
Proof.
  intros e s. rewrite body_eq. assert (X := ki_load_phase e s).
  destruct (load_phase e s) as [[[[wd kf] m] |] s1] eqn:L; cbn [snd] in *; [| assumption].
  apply load_phase_wd in L. subst wd. destruct (needs_fakeroot e m) as [nf meta].
  assert (Y := ki_fr _ _ _ (fr_fake e (fun _ => true) nf) s1). destruct (fake_step e nf s1) as [[u |] s2]; cbn [snd] in *;
    [| eapply inp_trans; eassumption]. assert (X2 := inp_trans _ _ _ X Y). clear X Y.
  assert (Y := ki_pack e kf m meta nf s2). destruct (pack_phase e [WD] kf m meta nf s2) as [[m' |] s3]; cbn [snd] in *;
    [| eapply inp_trans; [| apply inp_cleanup]; eapply inp_trans; eassumption]. assert (X3 := inp_trans _ _ _ X2 Y). clear X2 Y.
  assert (Y := inp_sign_phase e m' s3). destruct (sign_phase e m' s3) as [[u' | |] s4]; cbn [snd] in *;
    try (eapply inp_trans; [| apply inp_cleanup]; eapply inp_trans; eassumption); [| eapply inp_trans; eassumption].
  assert (X4 := inp_trans _ _ _ X3 Y). clear X3 Y.
  assert (Y := ki_rm e [] s4). destruct (rm_tree e [WD] s4) as [[u2 |] s5]; cbn [snd] in *;
    (eapply inp_trans; [| apply inp_cleanup]; eapply inp_trans; eassumption).
Qed.

Lemma inp_create : forall e s, inp s (snd (create_bundle e s)).
Proof.
  intros e s. unfold create_bundle. destruct (s_out s); [apply inp_refl |].
  assert (X := inp_body e s). destruct (create_body e s) as [[r k] s1]; cbn [snd] in X.
  assert (Z : inp s (snd (match s_out s1 with
              | None => (r, s1)
              | Some _ => match ask e KUnlinkOut s1 with
                          | (Some a, s'') => (r, if a_ok a then set_out None s'' else s'')
                          | (None, s'') => (r, s'')
                          end end))).
  { destruct (s_out s1); [| exact X]. cbn. eapply inp_trans; [exact X |]. destruct (a_ok _); apply inp_same; reflexivity. }
  destruct r; [| exact X]. destruct k; [exact X | exact Z].
Qed.

Lemma tget_sim : forall a b n p, sim notwd a b -> n <> WD -> tget a (n :: p) = tget b (n :: p).
Proof. intros a b n p S N. cbn [tget]. rewrite (sim_assoc notwd a b n S (notwd_true _ N)). reflexivity. Qed.

Lemma tget_shows : forall p es i, tget es p = Some (Reg i) -> shows es p (KFile i).
Proof.
  induction p as [| n p IH]; intros es i H; [discriminate |]. cbn [tget] in H.
  destruct (assoc n es) as [[j | d | t |] |] eqn:E; try discriminate; apply assoc_in in E;
    try (destruct p; discriminate).
  - destruct p; [injection H as ->; constructor; assumption | discriminate].
  - destruct p as [| m p]; [discriminate |]. eapply sh_sub; [eassumption |]. apply IH. assumption.
Qed.

(** ** C62: the inputs are not modified *)
Lemma c62_inputs_ok : forall e s r s', create_bundle e s = (r, s') ->
  (forall n p, n <> ".rauc-workdir" -> tget (s_root s') (n :: p) = tget (s_root s) (n :: p))
  /\ (inodes_ok s -> forall p i, input_file s p i -> s_cont s' i = s_cont s i).
Proof.
  intros e s r s' H. assert (X := inp_create e s). rewrite H in X. cbn [snd] in X. destruct X as [R N C]. split.
  - intros n p Nn. symmetry. apply tget_sim; assumption.
  - intros IO p i I. apply C. apply (IO p). apply tget_shows. exact I.
Qed.
