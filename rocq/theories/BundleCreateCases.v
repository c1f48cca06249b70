(** Proofs for C62: corollaries, the abort, and the refutations. *)
From Verif Require Import Base BaseLemmas KeyFile KeyFileLemmas Image Manifest BundleCreate BundleCreateSpec BundleCreateLink BundleCreateFrame
  BundleCreateProofs BundleCreateRun BundleCreateOut BundleCreateDone BundleCreateEnd.

Lemma layers_payload : forall f d c meta m o, layers f d c meta m o -> payload o = Some (d, c, meta).
Proof.
  intros f d c meta m o H. unfold layers in H. destruct f.
  - subst o. reflexivity.
  - destruct H as (? & ? & ? & _ & _ & _ & ->). reflexivity.
  - destruct H as (? & ? & ? & ? & _ & _ & _ & _ & ->). reflexivity.
Qed.

(** without symbolic links the bundle holds the content directory's tree *)
Lemma c62_no_links_ok : forall e s s' o d c meta, s_out s = None -> create_bundle e s = (Ret true false, s') ->
  s_out s' = Some o -> payload o = Some (d, c, meta) -> no_links (Dir (s_root s)) ->
  exists kf m0 t, parse_manifest kf = Ok m0
    /\ (forall n, assoc "manifest.raucm" (s_root s) = Some (Reg n) -> e_parse e (s_cont s n) = Some kf)
    /\ without_wd (Dir (s_root s)) = Dir t
    /\ forall n p k, ~ In n (touched kf m0) -> (shows d (n :: p) k <-> shows t (n :: p) k).
Proof.
  intros e s s' o d c meta O H OE PE NL.
  destruct (c62_success_ok _ _ _ O H) as (o1 & d1 & c1 & meta1 & kf & m0 & ms & j & Z1 & Z2 & _ & Z4 & Z5 & _ & _ & _ & _ & _ & _ & SH & _).
  rewrite Z1 in OE. injection OE as <-. apply layers_payload in Z2. rewrite Z2 in PE. injection PE as <- <- <-.
  exists kf, m0. eexists. split; [assumption |]. split; [assumption |]. split; [reflexivity |].
  intros n p k NI. rewrite (SH n p k NI). exact (no_links_sees (Dir (s_root s)) (s_root s) eq_refl NL (e_max e) (e_up e) (n :: p) k).
Qed.

(** without links named ".." only files of the content directory are in the bundle *)
Lemma c62_confined_ok : forall e s s' o d c meta, s_out s = None -> create_bundle e s = (Ret true false, s') ->
  s_out s' = Some o -> payload o = Some (d, c, meta) -> no_link_to ".." (Dir (s_root s)) ->
  exists kf m0, parse_manifest kf = Ok m0
    /\ (forall n, assoc "manifest.raucm" (s_root s) = Some (Reg n) -> e_parse e (s_cont s n) = Some kf)
    /\ forall n p i, ~ In n (touched kf m0) -> shows d (n :: p) (KFile i) -> exists q, shows (s_root s) q (KFile i).
Proof.
  intros e s s' o d c meta O H OE PE NL.
  destruct (c62_success_ok _ _ _ O H) as (o1 & d1 & c1 & meta1 & kf & m0 & ms & j & Z1 & Z2 & _ & Z4 & Z5 & _ & _ & _ & _ & _ & _ & SH & _).
  rewrite Z1 in OE. injection OE as <-. apply layers_payload in Z2. rewrite Z2 in PE. injection PE as <- <- <-.
  exists kf, m0. split; [assumption |]. split; [assumption |].
  intros n p i NI S. apply (SH n p _ NI) in S. eapply sees_confined; [exact S | assumption | reflexivity].
Qed.

(** ** the process is aborted exactly for manifests that already carry results *)
Lemma c62_abort_ok : forall e s s', s_out s = None -> create_bundle e s = (Aborted, s') ->
  exists kf m0, parse_manifest kf = Ok m0
    /\ (forall n, assoc "manifest.raucm" (s_root s) = Some (Reg n) -> e_parse e (s_cont s n) = Some kf)
    /\ ((mf_format m0 <> F_PLAIN /\ (mf_verity_hash m0 <> None \/ mf_verity_salt m0 <> None \/ mf_verity_size m0 <> 0%N))
        \/ (mf_format m0 = F_CRYPT /\ mf_crypt_key m0 <> None)).
Proof.
  intros e s s' O H. apply create_inv in H as (k & s1 & B & H); [| assumption]. clear H. rewrite body_eq in B.
  destruct (load_phase e s) as [[[[wd kf] m] |] t1] eqn:LP; [| discriminate].
  destruct (load_phase_inv _ _ _ _ _ _ LP) as (root1 & wd0 & m0 & n & -> & C1 & N1 & O1 & F1 & S1 & L1 & W1 & SR1 & OM & EP & PM & CI & CC & l & -> & FL).
  exists kf, m0. split; [assumption |].
  split. { intros x A. assert (X := open_top _ _ _ root1 _ _ x L1 W1 OM). rewrite <- X; [assumption |].
           rewrite <- (sim_assoc _ _ _ _ S1); [assumption | reflexivity]. }
  destruct (needs_fakeroot e (with_images m0 l)) as [nf meta] eqn:NF.
  destruct (fake_step e nf t1) as [[u |] t2] eqn:FS; [| discriminate].
  destruct (pack_phase e [WD] kf (with_images m0 l) meta nf t2) as [[m' |] t3] eqn:PP; [| discriminate].
  destruct (sign_phase e m' t3) as [[u' | |] t4] eqn:SP; try discriminate; [destruct (rm_tree e [WD] t4) as [[|] t5]; discriminate |].
  assert (X : mf_format m' = mf_format m0 /\ mf_verity_hash m' = mf_verity_hash m0 /\ mf_verity_salt m' = mf_verity_salt m0
              /\ mf_verity_size m' = mf_verity_size m0 /\ mf_crypt_key m' = mf_crypt_key m0).
  { unfold pack_phase in PP. apply mbind_some in PP as (a1 & q1 & _ & PP). apply mbind_some in PP as (a2 & q2 & _ & PP). cbv zeta in PP.
    apply mbind_some in PP as (a3 & q3 & _ & PP). apply mbind_some in PP as (a4 & q4 & _ & PP). injection PP as <- _. repeat split. }
  destruct X as (X1 & X2 & X3 & X4 & X5). rewrite <- X1, <- X2, <- X3, <- X4, <- X5. clear - SP.
  assert (CV : forall m1 t t', create_verity e m1 t = (FAbort, t') -> mf_verity_hash m1 <> None \/ mf_verity_salt m1 <> None \/ mf_verity_size m1 <> 0%N).
  { intros m1 t t' V. unfold create_verity in V. destruct (lift (ask_ok e KVerityOpen) t) as [[x | |] t1] eqn:L; try discriminate.
    destruct (mf_verity_salt m1) eqn:Es; [right; left; discriminate |]. destruct (mf_verity_hash m1) eqn:Eh; [left; discriminate |].
    destruct (N.eqb_spec (mf_verity_size m1) 0); [| right; right; assumption].
    unfold lift in V. match type of V with match ?x with _ => _ end = _ => destruct x as [[y |] z] end; discriminate. }
  assert (NA : forall m1 t t', lift (sign e m1) t <> (FAbort, t')).
  { intros m1 t t' V. unfold lift in V. destruct (sign e m1 t) as [[y |] z]; discriminate. }
  assert (SB : forall m1 t t', sign_bundle e m1 t = (FAbort, t') -> mf_format m1 <> F_PLAIN /\ (mf_verity_hash m1 <> None \/ mf_verity_salt m1 <> None \/ mf_verity_size m1 <> 0%N)).
  { intros m1 t t' V. unfold sign_bundle in V. destruct (mf_format m1) eqn:F; cbn [bformat_eqb] in V; [exfalso; eapply NA; exact V | |];
      (split; [discriminate |]; destruct (create_verity e m1 t) as [[y | |] z] eqn:Cr; try discriminate; [exfalso; eapply NA; exact V | eapply CV; exact Cr]). }
  unfold sign_phase in SP. destruct (mf_format m') eqn:F; cbn [bformat_eqb] in SP.
  - apply SB in SP as [N _]. congruence.
  - apply SB in SP as [_ SP]. left. split; [discriminate | assumption].
  - destruct (encrypt_payload e m' t3) as [[y | |] z] eqn:En; try discriminate.
    + left. split; [discriminate |]. apply SB in SP as [_ SP]. unfold encrypt_payload in En. destruct (mf_crypt_key m'); [discriminate |].
      apply lift_val in En. apply mbind_some in En as (a & t5 & _ & En). injection En as <- _. exact SP.
    + right. split; [reflexivity |]. unfold encrypt_payload in En. destruct (mf_crypt_key m'); [discriminate |].
      unfold lift in En. match type of En with match ?x with _ => _ end = _ => destruct x as [[w |] v] end; discriminate.
Qed.

(** ** the fakeroot state directory *)
Definition kfk {A} (m : M A) : Prop := forall s, s_fake (snd (m s)) = s_fake s.
Lemma kfk_quiet : forall A (m : M A), quiet m -> kfk m.
Proof. intros A m Q s. apply Q. Qed.
Lemma kfk_bind : forall A B (m : M A) (f : A -> M B), kfk m -> (forall x, kfk (f x)) -> kfk (mbind m f).
Proof.
  intros A B m f Hm Hf s. unfold mbind. specialize (Hm s). destruct (m s) as [[x |] s1]; cbn [snd] in *; [| assumption].
  rewrite Hf. assumption.
Qed.
Lemma kfk_put : forall p x, kfk (modify (put p x)).
Proof. intros p x s. reflexivity. Qed.
Lemma kfk_out : forall o, kfk (modify (set_out o)).
Proof. intros o s. reflexivity. Qed.
Lemma kfk_ret : forall A (x : A), kfk (ret x). Proof. intros. apply kfk_quiet, q_ret. Qed.
Lemma kfk_fail : forall A, kfk (@fail A). Proof. intros. apply kfk_quiet, q_fail. Qed.
Lemma kfk_guard : forall b, kfk (guard b). Proof. intros. apply kfk_quiet, q_guard. Qed.
Lemma kfk_get : kfk get. Proof. apply kfk_quiet, q_get. Qed.
Lemma kfk_ask : forall e c, kfk (ask e c). Proof. intros. apply kfk_quiet, q_ask. Qed.
Lemma kfk_ask_ok : forall e c, kfk (ask_ok e c). Proof. intros. apply kfk_quiet, q_ask_ok. Qed.
Lemma kfk_rm : forall e p, kfk (rm_tree e p).
Proof.
  intros. apply kfk_bind; [apply kfk_ask | intro a]. destruct (a_ok a); [apply kfk_put |]. apply kfk_bind; [apply kfk_put | intro; apply kfk_fail].
Qed.
Lemma kfk_mkdir : forall e p, kfk (mkdir e p).
Proof.
  intros. apply kfk_bind; [apply kfk_get | intro s]. destruct (tget (s_root s) p); [apply kfk_fail |]. apply kfk_bind; [apply kfk_ask_ok | intro; apply kfk_put].
Qed.
Lemma kfk_set : forall e p c, kfk (set_contents e p c).
Proof.
  intros. apply kfk_bind; [apply kfk_get | intro s].
  assert (X : kfk (ask_ok e (KWrite p) ;; modify (fun s => mkSt (tput (s_root s) p (Some (Reg (s_next s))))
                               (fun i => if Nat.eqb i (s_next s) then c else s_cont s i)
                               (S (s_next s)) (s_out s) (s_fake s) (s_log s)))) by (apply kfk_bind; [apply kfk_ask_ok | intros u s'; reflexivity]).
  destruct (tget (s_root s) p) as [[| | |] |]; first [exact X | apply kfk_fail].
Qed.
Create HintDb kfk.
#[local] Hint Resolve kfk_ret kfk_fail kfk_guard kfk_get kfk_ask kfk_ask_ok kfk_rm kfk_mkdir kfk_set kfk_put kfk_out : kfk.
Ltac kk := repeat first [ solve [eauto with kfk] | apply kfk_bind; [| intro]
  | match goal with
    | |- kfk (let (_, _) := ?x in _) => destruct x
    | |- kfk (match ?x with _ => _ end) => destruct x
    | |- kfk (if ?x then _ else _) => destruct x
    end ].
Lemma kfk_load : forall e, kfk (load_phase e).
Proof.
  intro e. unfold load_phase, prepare_workdir. cbv zeta. apply kfk_bind; [kk | intro wd].
  apply kfk_bind; [apply kfk_quiet, q_load | intro km]. apply kfk_bind; [kk | intro]. apply kfk_bind; [kk | intro].
  apply kfk_bind; [| intro; kk]. unfold sync_manifest. kk. apply kfk_quiet, q_each. intro; apply q_checksum.
Qed.
Lemma kfk_gen : forall e d l, kfk (generate_adaptive e d l).
Proof.
  intros e d l. induction l as [| i r IH]; [kk |]. cbn [generate_adaptive]. apply kfk_bind; [| intro; exact IH].
  destruct (im_adaptive i) as [| a ad]; [kk |]. destruct (im_filename i) as [f |]; [| kk].
  generalize (a :: ad). intro ms. induction ms as [| m q IHm]; [kk |]. cbn [adaptive_methods]. apply kfk_bind; [| intro; exact IHm]. kk.
Qed.
Lemma kfk_convert : forall e kf d fake i, kfk (convert_image e kf d fake i).
Proof.
  intros. unfold convert_image. destruct (_ && _); [kk |]. destruct (negb _); [kk |]. destruct (im_filename i) as [f |]; [| kk]. cbv zeta.
  apply kfk_bind.
  { destruct (_ || _); [| kk]. apply kfk_bind; [| intro; kk]. unfold tar_extract. cbv zeta. kk. }
  intro. apply kfk_bind.
  { generalize (im_convert i). intro l. induction l as [| m r IH]; [kk |]. cbn [convert_methods]. apply kfk_bind.
    - destruct (String.eqb m "tar-extract"); [kk |]. destruct (String.eqb m "composefs"); [unfold composefs; cbv zeta; kk | kk].
    - intro. apply kfk_bind; [exact IH | intro; kk]. }
  intro ck. kk.
Qed.
Lemma kfk_pack : forall e wd kf m meta fake, kfk (pack_phase e wd kf m meta fake).
Proof.
  intros. unfold pack_phase. apply kfk_bind; [apply kfk_gen | intro]. apply kfk_bind.
  { generalize (mf_images m). intro l. induction l as [| i r IH]; [kk |]. cbn [each_image]. apply kfk_bind; [apply kfk_convert | intro].
    apply kfk_bind; [exact IH | intro; kk]. }
  intro l. cbv zeta. apply kfk_bind; [kk | intro]. apply kfk_bind; [unfold mksquashfs; kk | intro; kk].
Qed.
Lemma kfk_rewrite : forall e k f, kfk (rewrite_out e k f).
Proof. intros. unfold rewrite_out. kk. Qed.
Lemma fake_verity : forall e m s, s_fake (snd (create_verity e m s)) = s_fake s.
Proof.
  intros e m s. unfold create_verity. assert (X := lift_snd _ (ask_ok e KVerityOpen) s). assert (Y := kfk_ask_ok e KVerityOpen s).
  destruct (lift (ask_ok e KVerityOpen) s) as [[u | |] s1]; cbn [snd] in *; [| congruence ..].
  destruct (mf_verity_salt m), (mf_verity_hash m); try (cbn [snd]; congruence). destruct (mf_verity_size m =? 0)%N; [| cbn [snd]; congruence].
  rewrite lift_snd. rewrite <- X in Y. rewrite <- Y. apply kfk_bind; [apply kfk_rewrite | intro; kk].
Qed.
Lemma fake_sign : forall e m s, s_fake (snd (lift (sign e m) s)) = s_fake s.
Proof.
  intros. rewrite lift_snd. revert s. unfold sign. change (kfk (match (if bformat_eqb (mf_format m) F_PLAIN then check_internal (e_rauc e) m else check_external (e_rauc e) m) with
    | Ok m' => let* _ := rewrite_out e KSign (fun (_ : ans) (o : outc) => OSigned o m') in ret tt | _ => fail end)).
  destruct (if bformat_eqb (mf_format m) F_PLAIN then _ else _); [| kk ..]. apply kfk_bind; [apply kfk_rewrite | intro; kk].
Qed.
Lemma fake_sign_bundle : forall e m s, s_fake (snd (sign_bundle e m s)) = s_fake s.
Proof.
  intros. unfold sign_bundle. destruct (bformat_eqb (mf_format m) F_PLAIN); [apply fake_sign |].
  assert (X := fake_verity e m s). destruct (create_verity e m s) as [[| |] s1]; cbn [snd] in *; try assumption. rewrite fake_sign. assumption.
Qed.
Lemma fake_sign_phase : forall e m s, s_fake (snd (sign_phase e m s)) = s_fake s.
Proof.
  intros. unfold sign_phase. destruct (bformat_eqb (mf_format m) F_CRYPT); [| apply fake_sign_bundle].
  assert (X : s_fake (snd (encrypt_payload e m s)) = s_fake s).
  { unfold encrypt_payload. destruct (mf_crypt_key m); [reflexivity |]. rewrite lift_snd. apply kfk_bind; [apply kfk_rewrite | intro; kk]. }
  destruct (encrypt_payload e m s) as [[| |] s1]; cbn [snd] in *; try assumption. rewrite fake_sign_bundle. assumption.
Qed.

Definition fake_failed (e : env) (s : st) : Prop :=
  exists l r c, s_log s = l ++ c :: r /\ (c = KFakeInit \/ c = KFakeRm) /\ a_ok (e_ans e (List.length r)) = false.
Lemma body_fake : forall e s r k s1, s_fake s = false -> create_body e s = (r, k, s1) -> r <> Aborted -> s_fake s1 = true -> fake_failed e s1.
Proof.
  intros e s r k s1 F B NA FE. rewrite body_eq in B.
  assert (K1 := kfk_load e s). destruct (load_phase e s) as [[[[wd kf] m] |] t1]; cbn [snd] in K1; [| injection B as _ _ <-; congruence].
  destruct (needs_fakeroot e m) as [nf meta].
  destruct (fake_step e nf t1) as [[u |] t2] eqn:FS.
  2:{ injection B as _ _ <-. destruct nf; cbn in FS; [| discriminate]. destruct (a_ok (e_ans e (List.length (s_log t1)))) eqn:A; [discriminate |].
      cbn in FS. injection FS as <-. exists [], (s_log t1), KFakeInit. split; [destruct (a_left _); reflexivity |]. auto. }
  assert (CL : forall t, s_fake t = s_fake t2 -> s1 = cleanup e nf t -> fake_failed e s1).
  { intros t E ->. destruct nf.
    - cbn in FE. destruct (a_ok (e_ans e (List.length (s_log t)))) eqn:A; [discriminate FE |]. exists [], (s_log t), KFakeRm.
      cbn. rewrite A. auto.
    - cbn in FS. injection FS as _ <-. cbn in FE. congruence. }
  assert (K3 := kfk_pack e wd kf m meta nf t2). destruct (pack_phase e wd kf m meta nf t2) as [[m' |] t3]; cbn [snd] in K3;
    [| injection B as _ _ <-; eapply CL; [exact K3 | reflexivity]].
  assert (K4 := fake_sign_phase e m' t3). destruct (sign_phase e m' t3) as [[u' | |] t4]; cbn [snd] in K4;
    [| injection B as _ _ <-; eapply CL; [rewrite K4; exact K3 | reflexivity] | injection B as <- _ _; congruence].
  assert (K5 := kfk_rm e wd t4). destruct (rm_tree e wd t4) as [[u2 |] t5]; cbn [snd] in K5; injection B as _ _ <-; (eapply CL; [| reflexivity]; congruence).
Qed.
Lemma c62_fakeroot_ok : forall e s ok err s', s_fake s = false -> create_bundle e s = (Ret ok err, s') -> s_fake s' = true ->
  exists l r c, s_log s' = l ++ c :: r /\ (c = KFakeInit \/ c = KFakeRm) /\ a_ok (e_ans e (List.length r)) = false.
Proof.
  intros e s ok err s' F H FE. unfold create_bundle in H. destruct (s_out s) as [o |]; [injection H as _ _ <-; congruence |].
  destruct (create_body e s) as [[r k] s1] eqn:B. assert (X := body_fake _ _ _ _ _ F B).
  destruct r as [ok' err' |]; [| discriminate]. specialize (X ltac:(discriminate)).
  destruct k; [injection H as _ _ <-; exact (X FE) |]. destruct (s_out s1) as [o |] eqn:O1; [| injection H as _ _ <-; exact (X FE)].
  cbn in H. injection H as _ _ <-. assert (FE1 : s_fake s1 = true) by (destruct (a_ok _); exact FE).
  destruct (X FE1) as (l & q & c & L & Hc & A). exists (KUnlinkOut :: l), q, c.
  split; [destruct (a_ok (e_ans e (List.length (s_log s1)))); cbn; rewrite L; reflexivity | auto].
Qed.

(** ** concrete runs *)
Definition hex64 : string := "0123456789abcdef0123456789abcdef0123456789abcdef0123456789abcdef".
Definition w_kf (fmt : string) (bundle_extra img_extra : list (string * string)) (more : keyfile) : keyfile :=
  [("update", [("compatible", "c")]); ("bundle", ("format", fmt) :: bundle_extra);
   ("image.rootfs", [("filename", "rootfs.tar")] ++ img_extra)] ++ more.
Definition w_env (kf : keyfile) (up : list dir) (fails : nat -> bool) : env :=
  mkEnv 40 up (fun _ => true) (fun c => match c with CRaw [] => Some kf | _ => None end) (fun _ => hex64) (fun _ => 1024%N)
    (fun n => mkAns (negb (fails n)) (Some (Dir [("f", Reg 7)])) (Some (OJunk [])) hex64 hex64 8192) false false true "1.15".
Definition w_root : dir := [("manifest.raucm", Reg 0); ("rootfs.tar", Reg 1); ("sub", Dir [("x", Reg 2)])].
Definition w_st (root : dir) : st := mkSt root (fun i => match i with 0 => CRaw [] | _ => CRaw [ascii_of_nat i] end) 10 None false [].
Definition w_out (r : outcome * st) : outcome * option (dir * bool) * dir :=
  (fst r, match s_out (snd r) with
          | Some o => match payload o with Some (d, _, meta) => Some (d, meta) | None => Some ([], false) end
          | None => None end, s_root (snd r)).


(** success is reported, with an error set and without a bundle: no fakeroot environment, or the
    working directory cannot be removed after the bundle was complete *)
Lemma c62_success_without_bundle_refuted :
  ~ forall e s s' err, create_bundle e s = (Ret true err, s') -> s_out s' <> None.
Proof.
  intro H. set (e := w_env (w_kf "verity" [] [("convert", "tar-extract")] []) [] (Nat.eqb 3)).
  destruct (create_bundle e (w_st w_root)) as [r s'] eqn:E.
  assert (X : r = Ret true true /\ s_out s' = None) by (vm_compute in E; injection E as <- <-; split; reflexivity).
  destruct X as [-> X]. exact (H _ _ _ _ E X).
Qed.
Lemma c62_workdir_removal_refuted : exists e s s', s_out s = None /\ create_bundle e s = (Ret true true, s') /\ s_out s' = None
  /\ In KSign (s_log s') /\ In KUnlinkOut (s_log s')
  /\ forall n, n < List.length (s_log s') -> a_ok (e_ans e n) = true \/ nth_error (rev (s_log s')) n = Some (KRmTree [".rauc-workdir"]).
Proof.
  set (e := w_env (w_kf "plain" [] [] []) [] (Nat.eqb 6)).
  exists e, (w_st w_root). destruct (create_bundle e (w_st w_root)) as [r s'] eqn:E. exists s'. split; [reflexivity |].
  vm_compute in E. injection E as <- <-. split; [reflexivity |]. split; [reflexivity |].
  split; [cbn; tauto |]. split; [cbn; tauto |].
  intros n L. do 9 (destruct n as [| n]; [cbn; auto |]). cbn in L. lia.
Qed.

(** a manifest that already has verity fields: the process is aborted, the output and the working
    directory stay *)
Lemma c62_never_aborts_refuted : exists e s s', s_out s = None /\ create_bundle e s = (Aborted, s')
  /\ s_out s' <> None /\ tget (s_root s') [".rauc-workdir"] <> None /\ forall n, a_ok (e_ans e n) = true.
Proof.
  set (e := w_env (w_kf "verity" [("verity-salt", hex64)] [] []) [] (fun _ => false)).
  exists e, (w_st w_root). destruct (create_bundle e (w_st w_root)) as [r s'] eqn:E. exists s'. split; [reflexivity |].
  vm_compute in E. injection E as <- <-. split; [reflexivity |]. split; [discriminate |]. split; [discriminate | reflexivity].
Qed.

(** a symbolic link to ".." has no slash and is accepted: files beside the content directory get into
    the bundle *)
Lemma c62_confined_refuted :
  ~ forall e s s' o d c meta p i, s_out s = None -> create_bundle e s = (Ret true false, s') -> s_out s' = Some o ->
      payload o = Some (d, c, meta) -> shows d p (KFile i) -> i < s_next s -> exists q, shows (s_root s) q (KFile i).
Proof.
  intro H. set (e := w_env (w_kf "verity" [] [] []) [[("secret", Reg 9)]] (fun _ => false)).
  set (r := create_bundle e (w_st (("l", Lnk "..") :: w_root))).
  assert (E : exists s' o d c meta, r = (Ret true false, s') /\ s_out s' = Some o /\ payload o = Some (d, c, meta)
             /\ In ("l", Dir [("secret", Reg 9)]) d).
  { unfold r. vm_compute. do 5 eexists. repeat (split; [reflexivity |]). left. reflexivity. }
  destruct E as (s' & o & d & c & meta & E1 & E2 & E3 & E4).
  destruct (H e (w_st (("l", Lnk "..") :: w_root)) _ _ _ _ _ ["l"; "secret"] 9 eq_refl E1 E2 E3) as [q Q].
  - eapply sh_sub; [exact E4 |]. constructor. left. reflexivity.
  - cbn. lia.
  - cbn [s_root w_st] in Q. inversion Q as [es n i I | | | es n d0 q0 k I Q0]; subst.
    + destruct I as [I | [I | [I | [I | []]]]]; discriminate I.
    + destruct I as [I | [I | [I | [I | []]]]]; try discriminate I. injection I as <- <-.
      inversion Q0 as [es n i I | | | es n d0 q1 k I Q1]; subst; (destruct I as [I | []]; discriminate I).
Qed.

(** "convert=" without a method: the bundle is made, but the image is not in it *)
Lemma c62_image_present_refuted :
  ~ forall e s s' o d c meta ms i f, s_out s = None -> create_bundle e s = (Ret true false, s') -> s_out s' = Some (OSigned o ms) ->
      payload o = Some (d, c, meta) -> In i (mf_images ms) -> im_filename i = Some f ->
      assoc f d <> None \/ im_converted i <> [].
Proof.
  intro H. set (e := w_env (w_kf "verity" [] [("convert", "")] []) [] (fun _ => false)).
  set (r := create_bundle e (w_st w_root)).
  assert (E : exists s' o d c meta ms i, r = (Ret true false, s') /\ s_out s' = Some (OSigned o ms) /\ payload o = Some (d, c, meta)
             /\ In i (mf_images ms) /\ im_filename i = Some "rootfs.tar" /\ assoc "rootfs.tar" d = None /\ im_converted i = []).
  { unfold r. vm_compute. do 7 eexists. do 3 (split; [reflexivity |]). split; [left; reflexivity |]. repeat split. }
  destruct E as (s' & o & d & c & meta & ms & i & E1 & E2 & E3 & E4 & E5 & E6 & E7).
  destruct (H e (w_st w_root) _ _ _ _ _ _ _ _ eq_refl E1 E2 E3 E4 E5); contradiction.
Qed.

(** two images may share a file; if one of them is converted the other's file is gone *)
Lemma c62_shared_file_refuted :
  ~ forall e s s' o d c meta ms i f, s_out s = None -> create_bundle e s = (Ret true false, s') -> s_out s' = Some (OSigned o ms) ->
      payload o = Some (d, c, meta) -> In i (mf_images ms) -> im_filename i = Some f -> im_convert i = [] -> assoc f d <> None.
Proof.
  intro H. set (e := w_env (w_kf "verity" [] [("convert", "tar-extract")] [("image.appfs", [("filename", "rootfs.tar")])]) [] (fun _ => false)).
  set (r := create_bundle e (w_st w_root)).
  assert (E : exists s' o d c meta ms i, r = (Ret true false, s') /\ s_out s' = Some (OSigned o ms) /\ payload o = Some (d, c, meta)
             /\ In i (mf_images ms) /\ im_filename i = Some "rootfs.tar" /\ im_convert i = [] /\ assoc "rootfs.tar" d = None).
  { unfold r. vm_compute. do 7 eexists. do 3 (split; [reflexivity |]). split; [right; left; reflexivity |]. repeat split. }
  destruct E as (s' & o & d & c & meta & ms & i & E1 & E2 & E3 & E4 & E5 & E6 & E7).
  exact (H e (w_st w_root) _ _ _ _ _ _ _ _ eq_refl E1 E2 E3 E4 E5 E6 E7).
Qed.

(** the bundle's manifest tells the truth about the image files in the bundle *)
Lemma c62_images_ok : forall e s s' o ms, s_out s = None -> inodes_ok s -> create_bundle e s = (Ret true false, s') ->
  s_out s' = Some (OSigned o ms) ->
  exists kf m0 d c meta, payload o = Some (d, c, meta) /\ parse_manifest kf = Ok m0
    /\ (forall n, assoc "manifest.raucm" (s_root s) = Some (Reg n) -> e_parse e (s_cont s n) = Some kf)
    /\ forall i f n, In i (mf_images ms) -> im_filename i = Some f -> ~ In f (touched kf m0) -> f <> ".rauc-workdir" ->
         assoc f (s_root s) = Some (Reg n) ->
         exists n', assoc f d = Some (Reg n') /\ c n' = s_cont s n
           /\ im_digest i = Some (e_sha e (c n')) /\ im_size i = Z.of_N (e_size e (c n')).
Proof.
  intros e s s' o ms O IO H OE.
  destruct (c62_success_ok _ _ _ O H) as (o1 & d & c & meta & kf & m0 & ms' & j & Z1 & Z2 & _ & Z4 & Z5 & _ & FD & CK & _ & _ & _ & _ & AS & CT & _).
  rewrite OE in Z1. injection Z1 as <-.
  assert (X : ms' = ms /\ payload o = Some (d, c, meta)).
  { unfold layers in Z2. destruct (mf_format m0).
    - injection Z2 as -> ->. split; reflexivity.
    - destruct Z2 as (? & ? & ? & _ & _ & _ & Z2). injection Z2 as -> ->. split; reflexivity.
    - destruct Z2 as (? & ? & ? & ? & _ & _ & _ & _ & Z2). injection Z2 as -> ->. split; reflexivity. }
  destruct X as [-> PO]. exists kf, m0, d, c, meta. split; [assumption |]. split; [assumption |]. split; [assumption |].
  intros i f n I F NT NW A.
  exists n. split; [apply AS; assumption |]. assert (L : n < s_next s).
  { apply (IO [f]). constructor. apply assoc_in. assumption. }
  rewrite CT by assumption. split; [reflexivity |].
  clear - FD I F A. induction FD as [| a b r r' Hab R IH]; [destruct I |]. destruct I as [-> | I]; [| auto].
  unfold described in Hab. destruct Hab as (_ & _ & _ & Fa & _ & _ & _ & _ & _ & _ & Hab & _). rewrite <- Fa, F in Hab.
  apply Hab. assumption.
Qed.
