(** Proofs for C63: outcomes, the finished bundle, what is left behind. *)
From Verif Require Import Base BaseLemmas KeyFile KeyFileLemmas Image Manifest BundleCreate BundleCreateSpec BundleCreateLink BundleCreateFrame
  BundleCreateProofs BundleCreateRun BundleCreateOut BundleCreateDone BundleCreateMore ShellWords CasyncConvert CasyncConvertSpec CasyncConvertProofs CasyncConvertRun.

Lemma c63_existing_output_ok : forall e o b s x, s_out s = Some x -> create_casync e o b s = (Ret false true, s).
Proof. intros e o b s x H. unfold create_casync. rewrite H. reflexivity. Qed.

(** ** the result of the steps before signing *)
Lemma convert_content_inv : forall e o b t s m s', has_prefix "rauc-casync-" t = true -> convert_content e o b t s = (Some m, s') ->
  exists m0 l s1 s2 d d',
    m = with_images (without_verity m0) l
    /\ s_cont s1 = s_cont s /\ s_next s1 = s_next s /\ s_out s1 = s_out s /\ (exists lg, s_log s1 = lg ++ s_log s) /\ cdir t s1 = Some b
    /\ (forall n, assoc MF b = Some (Reg n) -> exists kf, e_parse e (s_cont s n) = Some kf /\ parse_manifest kf = Ok m0)
    /\ assoc MF b <> None
    /\ each_image (convert_one e o t) (mf_images m0) s1 = (Some l, s2)
    /\ loop e o t (mf_images m0) l s1 s2 b d
    /\ d' = assoc_set MF (Reg (s_next s2)) d /\ cdir t s' = Some d'
    /\ s_out s' = Some (OSquash d' (s_cont s') false)
    /\ s_cont s' (s_next s2) = CText (prepare_manifest m) /\ (forall k, k < s_next s2 -> s_cont s' k = s_cont s2 k)
    /\ (exists lg, s_log s' = lg ++ s_log s2) /\ s_out s2 = None.
Proof.
  intros e o b t s m s' PT H. apply mbind_some in H as ([] & x1 & E & H).
  assert (EX : s_cont x1 = s_cont s /\ s_next x1 = s_next s /\ s_out x1 = s_out s /\ (exists lg, s_log x1 = lg ++ s_log s) /\
     (cdir t x1 = Some b \/ cdir t x1 = None)).
  { apply mbind_some in E as ([] & y & A & E). apply ask_ok_inv in A. subst y. apply mbind_some in E as (a & y & A & E). apply ask_inv in A as [_ ->].
    destruct (a_ok a); [| apply mbind_some in E as (? & ? & _ & E); discriminate]. injection E as <-.
    repeat (split; [reflexivity |]). split; [exists [KExtract; KPayload]; reflexivity |].
    unfold cdir, put, set_root. cbn [s_root tget tput]. destruct (assoc t (s_root s)) as [[| es | |] |] eqn:AT; rewrite ?AT; try (right; reflexivity).
    left. rewrite assoc_set_eq. cbn [tget]. rewrite assoc_set_eq. reflexivity. }
  destruct EX as (C1 & N1 & O1 & (g1 & G1) & CD1).
  apply mbind_some in H as (m0 & x2 & L & H). cbv zeta in H.
  apply mbind_some in L as (y & y' & G & L). injection G as <- <-. apply mbind_some in L as (a & y & A & L). apply ask_inv in A as [_ ->].
  assert (CD : cdir t x1 = Some b).
  { destruct CD1 as [X | X]; [assumption |]. exfalso. unfold cdir in X. destruct (tget (s_root x1) [t; "content"]) as [[| | |] |]; discriminate. }
  clear CD1. assert (TG : tget (s_root x1) [t; "content"] = Some (Dir b)).
  { unfold cdir in CD. destruct (tget (s_root x1) [t; "content"]) as [[| | |] |]; congruence. }
  rewrite TG in L.
  assert (MFB : assoc MF b <> None /\ x2 = mkSt (s_root x1) (s_cont x1) (s_next x1) (s_out x1) (s_fake x1) (KLoad :: s_log x1)
     /\ forall n, assoc MF b = Some (Reg n) -> exists kf, e_parse e (s_cont s n) = Some kf /\ parse_manifest kf = Ok m0).
  { destruct (source b MF a x1) as [c |] eqn:SR; [| discriminate]. unfold source in SR.
    apply mbind_some in L as ([] & z & G & L). apply guard_some in G as [_ ->].
    destruct (e_parse e c) as [kf |] eqn:EP; [| discriminate]. destruct (parse_manifest kf) as [m1 | |] eqn:PM; try discriminate. injection L as -> <-.
    split; [destruct (assoc MF b); discriminate |]. split; [reflexivity |]. intros n A. rewrite A in SR. injection SR as <-. rewrite C1 in EP. eauto. }
  destruct MFB as (MB & -> & MP). clear L.
  set (s1 := mkSt (s_root x1) (s_cont x1) (s_next x1) (s_out x1) (s_fake x1) (KLoad :: s_log x1)) in *.
  change (mf_images (without_verity m0)) with (mf_images m0) in H.
  apply mbind_some in H as (l & s2 & EA & H).
  destruct (each_loop e o t (mf_images m0) s1 l s2 b PT CD EA) as (d & LP).
  apply mbind_some in H as ([] & s3 & W & H). apply mbind_some in H as ([] & s4 & SQ & H). injection H as <- <-.
  exists m0, l, s1, s2, d, (assoc_set MF (Reg (s_next s2)) d).
  assert (D2 := lp_dir _ _ _ _ _ _ _ _ _ LP).
  apply mbind_some in W as (y & y' & G & W). injection G as <- <-.
  assert (W' : (ask_ok e (KWrite [t; "content"; MF]) ;; modify (fun s => mkSt (tput (s_root s) [t; "content"; MF] (Some (Reg (s_next s))))
                               (fun i => if Nat.eqb i (s_next s) then CText (prepare_manifest (with_images (without_verity m0) l)) else s_cont s i)
                               (S (s_next s)) (s_out s) (s_fake s) (s_log s))) s2 = (Some tt, s3)).
  { destruct (tget (s_root s2) [t; "content"; MF]) as [[| | |] |]; try discriminate; exact W. }
  clear W. apply mbind_some in W' as ([] & y & A & W). apply ask_ok_inv in A. subst y. injection W as <-. cbn [s_root s_next s_out s_fake s_log s_cont] in *.
  apply mbind_some in SQ as (y & y' & G & SQ). injection G as <- <-. cbn [s_out] in SQ.
  destruct (s_out s2) eqn:O2; [discriminate |]. apply mbind_some in SQ as (a' & y & A & SQ). apply ask_inv in A as [_ ->]. cbn [s_root s_out s_next s_cont s_fake s_log] in SQ.
  destruct (a_ok a'); [| apply mbind_some in SQ as (? & ? & _ & SQ); discriminate].
  assert (CDN : cdir t (put [t; "content"; MF] (Some (Reg (s_next s2))) s2) = Some (assoc_set MF (Reg (s_next s2)) d)) by (apply (cdir_put t s2 MF (Some _)); assumption).
  unfold cdir, put, set_root in CDN. cbn [s_root] in CDN.
  destruct (tget (tput (s_root s2) [t; "content"; MF] (Some (Reg (s_next s2)))) [t; "content"]) as [[| es | |] |] eqn:TD; try discriminate.
  injection CDN as ->. 
  match type of SQ with (match ?q with _ => _ end) _ = _ => change q with (tget (tput (s_root s2) [t; "content"; MF] (Some (Reg (s_next s2)))) [t; "content"]) in SQ end.
  rewrite TD in SQ. injection SQ as <-.
  split; [reflexivity |]. split; [exact C1 |]. split; [exact N1 |]. split; [exact O1 |].
  split; [exists (KLoad :: g1); cbn; rewrite G1; reflexivity |]. split; [exact CD |]. split; [assumption |]. split; [assumption |]. split; [assumption |]. split; [assumption |].
  split; [reflexivity |]. split; [unfold cdir; match goal with |- (match ?q with _ => _ end) = _ => change q with (tget (tput (s_root s2) [t; "content"; MF] (Some (Reg (s_next s2)))) [t; "content"]) end; rewrite TD; reflexivity |]. split; [reflexivity |].
  cbn [set_out s_cont]. rewrite Nat.eqb_refl. split; [reflexivity |]. split.
  { intros k Hk. destruct (Nat.eqb_spec k (s_next s2)); [lia | reflexivity]. }
  split; [eexists [_; _]; reflexivity |]. reflexivity.
Qed.

Lemma sign_no_abort : forall e m s, mf_verity_hash m = None -> mf_verity_salt m = None -> mf_verity_size m = 0%N -> fst (sign_bundle e m s) <> FAbort.
Proof.
  intros e m s A B C. unfold sign_bundle. assert (L : forall T (q : M T) x, fst (lift q x) <> FAbort) by (intros T q x; unfold lift; destruct (q x) as [[?|] ?]; discriminate).
  destruct (bformat_eqb (mf_format m) F_PLAIN); [apply L |].
  assert (X : fst (create_verity e m s) <> FAbort).
  { unfold create_verity. destruct (lift (ask_ok e KVerityOpen) s) as [[| |] s1]; try discriminate. rewrite A, B, C. cbn [N.eqb]. apply L. }
  destruct (create_verity e m s) as [[m' | |] s1]; [apply L | discriminate | destruct (X eq_refl)].
Qed.

Lemma convert_no_abort : forall e o b s, fst (convert_bundle e o b s) <> FAbort.
Proof.
  intros e o b s. unfold convert_bundle. destruct (make_tmp e "rauc-casync-" s) as [[t |] s1] eqn:T; [| discriminate].
  apply make_tmp_inv in T as (PT & _). destruct (convert_content e o b t s1) as [[m |] s2] eqn:C; [| discriminate].
  apply convert_content_inv in C as (m0 & l & _ & _ & _ & _ & -> & _); [| assumption].
  assert (X := sign_no_abort e (with_images (without_verity m0) l) s2 eq_refl eq_refl eq_refl).
  destruct (sign_bundle e (with_images (without_verity m0) l) s2) as [[| |] s3]; cbn [fst] in *; congruence.
Qed.

Lemma casync_inv : forall e o b s r s', s_out s = None -> create_casync e o b s = (r, s') ->
  (r = Ret true false /\ exists s1 s2, s1 = mkSt (s_root s) (s_cont s) (s_next s) (s_out s) (s_fake s) (KPayload :: s_log s)
       /\ convert_bundle e o b s1 = (FVal s2, s'))
  \/ (r = Ret false true /\ exists s1, (ask_ok e KPayload s = (None, s1) \/ exists s0, ask_ok e KPayload s = (Some tt, s0) /\ convert_bundle e o b s0 = (FFail, s1))
      /\ ((s_out s1 = None /\ s' = s1)
          \/ (s_out s1 <> None /\ s_root s' = s_root s1 /\ s_log s' = KUnlinkOut :: s_log s1 /\ s_out s' = if a_ok (e_ans e (List.length (s_log s1))) then None else s_out s1))).
Proof.
  intros e o b s r s' O H. unfold create_casync in H. rewrite O in H.
  assert (FAIL : forall s1, (match s_out s1 with
          | None => (Ret false true, s1)
          | Some _ => match ask e KUnlinkOut s1 with
                      | (Some a, s) => (Ret false true, if a_ok a then set_out None s else s)
                      | (None, s) => (Ret false true, s)
                      end end) = (r, s') -> r = Ret false true /\ ((s_out s1 = None /\ s' = s1)
          \/ (s_out s1 <> None /\ s_root s' = s_root s1 /\ s_log s' = KUnlinkOut :: s_log s1 /\ s_out s' = if a_ok (e_ans e (List.length (s_log s1))) then None else s_out s1))).
  { intros s1 E. destruct (s_out s1) as [x |] eqn:O1; [| injection E as <- <-; auto]. cbn in E. injection E as <- <-. split; [reflexivity |]. right.
    split; [discriminate |]. destruct (a_ok (e_ans e (List.length (s_log s1)))); cbn; auto. }
  destruct (ask_ok e KPayload s) as [[[] |] s0] eqn:A.
  - assert (NA := convert_no_abort e o b s0). destruct (convert_bundle e o b s0) as [[x | |] s1] eqn:CV; [| | destruct (NA eq_refl)].
    + injection H as <- <-. left. split; [reflexivity |]. apply ask_ok_inv in A. subst s0. exists (mkSt (s_root s) (s_cont s) (s_next s) (s_out s) (s_fake s) (KPayload :: s_log s)), x. auto.
    + apply FAIL in H as (-> & H). right. split; [reflexivity |]. exists s1. split; [right; exists s0; auto | assumption].
  - apply FAIL in H as (-> & H). right. split; [reflexivity |]. exists s0. auto.
Qed.

(** success without an error, or failure with one and without an output *)
Lemma c63_outcome_ok : forall e o b s r s', s_out s = None -> create_casync e o b s = (r, s') ->
  (r = Ret true false /\ s_out s' <> None)
  \/ (r = Ret false true /\ (s_out s' = None \/ exists l, s_log s' = KUnlinkOut :: l /\ a_ok (e_ans e (List.length l)) = false)).
Proof.
  intros e o b s r s' O H. apply casync_inv in H as [(-> & s1 & u & -> & C) | (-> & s1 & _ & [[O1 ->] | (_ & _ & L & O')])].
  - left. split; [reflexivity |]. unfold convert_bundle in C. destruct (make_tmp e "rauc-casync-" _) as [[t |] x1] eqn:T; [| discriminate].
    apply make_tmp_inv in T as (PT & _). destruct (convert_content e o b t x1) as [[m |] x2] eqn:CC; [| discriminate].
    apply convert_content_inv in CC as (m0 & l & y1 & y2 & d & d' & -> & _ & _ & _ & _ & _ & _ & _ & _ & _ & _ & _ & OS & _); [| assumption].
    destruct (sign_bundle e _ x2) as [[v | |] x3] eqn:SB; try discriminate. injection C as _ <-.
    eapply sign_bundle_inv in SB as (_ & oo & ms & OO & _); [| exact OS].
    assert (X : s_out (snd (rm_tree e [t] x3)) = s_out x3).
    { unfold rm_tree, mbind, ask. cbn. destruct (a_ok _); reflexivity. }
    rewrite X, OO. discriminate.
  - right. auto.
  - right. split; [reflexivity |]. destruct (a_ok (e_ans e (List.length (s_log s1)))) eqn:A; [left; assumption | right; exists (s_log s1); auto].
  - assumption.
Qed.
