(** Proofs for C62: the block hash indices. *)
From Verif Require Import Base BaseLemmas KeyFile KeyFileLemmas Image Manifest BundleCreate BundleCreateSpec BundleCreateLink BundleCreateFrame
  BundleCreateProofs BundleCreateRun BundleCreateOut BundleCreateDone BundleCreateEnd BundleCreateConv BundleCreateCases BundleCreateMore.

Definition idx (f : string) : string := (f ++ ".block-hash-index")%string.
Fixpoint lastc (s : string) : option ascii :=
  match s with EmptyString => None | String c EmptyString => Some c | String _ r => lastc r end.
Lemma lastc_app : forall a c b, lastc (a ++ String c b)%string = lastc (String c b).
Proof.
  induction a as [| x a IH]; intros c b; [reflexivity |]. cbn [append lastc]. rewrite IH.
  destruct (a ++ String c b)%string eqn:E; [destruct a; discriminate | reflexivity].
Qed.
Lemma app_inj_r : forall a b c : string, (a ++ c)%string = (b ++ c)%string -> a = b.
Proof.
  induction a as [| x a IH]; intros b c H.
  - destruct b as [| y b]; [reflexivity |]. exfalso. apply (f_equal String.length) in H. cbn in H. rewrite length_app_s in H. lia.
  - destruct b as [| y b].
    + exfalso. apply (f_equal String.length) in H. cbn in H. rewrite length_app_s in H. lia.
    + cbn in H. injection H as -> H. f_equal. eapply IH. exact H.
Qed.
Lemma idx_conv : forall f i, ~ In (idx f) (conv_by i).
Proof.
  intros f i H. unfold conv_by in H. destruct (im_filename i) as [g |]; [| destruct H]. unfold idx in H.
  apply in_app_or in H as [H | H].
  - destruct (_ || _); [| destruct H]. destruct H as [H | []]. apply (f_equal lastc) in H. rewrite !lastc_app in H. discriminate.
  - destruct (existsb _ _); [| destruct H]. destruct H as [H | [H | []]]; apply (f_equal lastc) in H; rewrite !lastc_app in H; discriminate.
Qed.
Lemma idx_neq : forall f, idx f <> f.
Proof. intros f H. apply (f_equal String.length) in H. unfold idx in H. rewrite length_app_s in H. cbn in H. lia. Qed.

Lemma set_ent : forall e x c s u s', set_contents e [WD; x] c s = (Some u, s') -> hasw s ->
  exists k, ent x s' = Some (Reg k) /\ s_cont s' k = c /\ k < s_next s'.
Proof.
  intros e x c s u s' H D. apply mbind_some in H as (a & b & G & H). injection G as <- <-.
  assert (Z : forall t, s_root t = s_root s -> (modify (fun s => mkSt (tput (s_root s) [WD; x] (Some (Reg (s_next s))))
                               (fun i => if Nat.eqb i (s_next s) then c else s_cont s i)
                               (S (s_next s)) (s_out s) (s_fake s) (s_log s))) t = (Some u, s') ->
      exists k, ent x s' = Some (Reg k) /\ s_cont s' k = c /\ k < s_next s').
  { intros t E R. injection R as _ <-. exists (s_next t). destruct D as [d W]. unfold ent, wdir in *. cbn [s_root tput tget s_cont s_next] in *. rewrite E.
    destruct (assoc WD (s_root s)) as [[| es | |] |] eqn:AW; try discriminate. rewrite assoc_set_eq, assoc_set_eq, Nat.eqb_refl. split; [reflexivity |]. split; [reflexivity | lia]. }
  destruct (tget (s_root s) [WD; x]) as [[| | |] |]; try discriminate;
    (apply mbind_some in H as ([] & y & A & H); assert (Q := q_ask_ok e (KWrite [WD; x]) s); rewrite A in Q; cbn in Q; destruct Q as (Q & _); eapply Z; eassumption).
Qed.

Record inv (f : string) (n : nat) (X : cont) (done : bool) (s : st) : Prop := mkInv {
  v_w : hasw s;
  v_f : ent f s = Some (Reg n); v_n : n < s_next s; v_c : s_cont s n = X;
  v_i : done = true -> exists k, ent (idx f) s = Some (Reg k) /\ s_cont s k = CIndex X /\ k < s_next s
}.
Lemma inv_step : forall A L (m : M A) f n X done s y s', fr (out_of L) m -> ~ In f L -> ~ In (idx f) L ->
  inv f n X done s -> m s = (Some y, s') -> inv f n X done s'.
Proof.
  intros A L m f n X done s y s' F N1 N2 [W E Ln C I] H. destruct (fr_ent _ _ _ f _ _ _ F N1 W H) as [E' W'].
  destruct (fr_ent _ _ _ (idx f) _ _ _ F N2 W H) as [Ei _]. destruct (fr_cont _ _ _ _ _ _ F H) as [Cc Nn].
  split; [assumption | congruence | lia | rewrite Cc by assumption; assumption |].
  intro D. destruct (I D) as (k & K1 & K2 & K3). exists k. split; [congruence |]. split; [rewrite Cc by assumption; assumption | lia].
Qed.
Lemma adaptive_inv : forall e f n X l done s u s', f <> "." -> f <> ".." -> f <> WD -> adaptive_methods e [WD] f l s = (Some u, s') ->
  inv f n X done s -> inv f n X (done || existsb (String.eqb "block-hash-index") l) s'.
Proof.
  intros e f n X. induction l as [| m r IH]; intros done s u s' N1 N2 N3 H V; cbn [adaptive_methods existsb] in *.
  - injection H as _ <-. rewrite orb_false_r. assumption.
  - apply mbind_some in H as (v & s1 & C & H). rewrite String.eqb_sym. destruct (String.eqb m "block-hash-index").
    + rewrite orb_true_l, orb_true_r. apply (IH true _ _ _ N1 N2 N3) in H; [exact H |].
      apply mbind_some in C as (x & x' & G & C). injection G as <- <-.
      destruct (open_in e [WD] f s) as [k |] eqn:OK; [| discriminate].
      assert (k = n).
      { destruct V as [_ Ef _ _ _]. unfold ent, wdir in Ef. unfold open_in in OK. destruct (tget (s_root s) [WD]) as [[| es | |] |]; try discriminate.
        destruct (e_max e); cbn [follow] in OK;
          (rewrite (proj2 (String.eqb_neq f ".") N1), (proj2 (String.eqb_neq f "..") N2), (proj2 (String.eqb_neq f WD) N3), Ef in OK;
           injection OK as ->; reflexivity). }
      subst k. apply mbind_some in C as (v2 & s2 & A & C). cbn [app] in C.
      assert (V2 : inv f n X done s2) by (eapply (inv_step _ [] _ _ _ _ _ _ _ _ (fr_ask_ok e _ _)); [intros [] | intros [] | exact V | exact A]).
      assert (FS : fr (out_of [idx f]) (set_contents e [WD; idx f] (CIndex (s_cont s n)))) by (apply fr_set_contents, out_of_in; left; reflexivity).
      fold (idx f) in C. destruct V2 as [W2 E2 L2 C2 I2]. destruct (fr_ent _ _ _ f _ _ _ FS ltac:(intros [Y | []]; exact (idx_neq _ Y)) W2 C) as [E3 W3].
      destruct (fr_cont _ _ _ _ _ _ FS C) as [Cc Nn].
      split; [assumption | congruence | lia | rewrite Cc by assumption; assumption |].
      intros _. destruct (set_ent _ _ _ _ _ _ C W2) as (k & K1 & K2 & K3). exists k. destruct V as [_ _ _ Vc _]. rewrite Vc in K2. auto.
    + cbn [orb]. apply guard_some in C as [_ ->]. eapply IH; eassumption.
Qed.
Lemma generate_inv : forall e f n X l done s u s', f <> "." -> f <> ".." -> f <> WD -> (forall j, In j l -> ~ In f (touched_by j)) ->
  generate_adaptive e [WD] l s = (Some u, s') -> inv f n X done s ->
  inv f n X (done || existsb (fun i => match im_filename i with
                                      | Some g => String.eqb g f && existsb (String.eqb "block-hash-index") (im_adaptive i)
                                      | None => false end) l) s'.
Proof.
  intros e f n X. induction l as [| i r IH]; intros done s u s' N1 N2 N3 NT H V; cbn [generate_adaptive existsb] in *.
  - injection H as _ <-. rewrite orb_false_r. assumption.
  - apply mbind_some in H as (v & s1 & C & H). rewrite orb_assoc. eapply IH; try eassumption; [intros; apply NT; right; assumption |].
    clear H IH. assert (T := NT i (or_introl eq_refl)).
    destruct (im_adaptive i) as [| a q] eqn:EA.
    { injection C as _ <-. destruct (im_filename i); cbn [existsb]; rewrite ?andb_false_r, ?orb_false_r; assumption. }
    destruct (im_filename i) as [g |] eqn:EG; [| discriminate]. destruct (String.eqb_spec g f) as [-> | Ng].
    + cbn [andb]. eapply adaptive_inv; eassumption.
    + cbn [andb]. rewrite orb_false_r.
      destruct (existsb (String.eqb "block-hash-index") (a :: q)) eqn:B.
      * eapply (inv_step _ [idx g] _ _ _ _ _ _ _ _ (fr_adaptive e g (a :: q) [idx g] ltac:(intros _; left; reflexivity))); [| | exact V | exact C].
        -- intros [Y | []]. apply T. rewrite <- Y. apply touched_adaptive; [assumption | rewrite EA; assumption].
        -- intros [Y | []]. unfold idx in Y. apply app_inj_r in Y. congruence.
      * eapply (inv_step _ [] _ _ _ _ _ _ _ _ (fr_adaptive e g (a :: q) [] ltac:(intro Y; congruence))); [intros [] | intros [] | exact V | exact C].
Qed.

Lemma c62_index_ok : forall e s s' o d c meta, s_out s = None -> inodes_ok s -> create_bundle e s = (Ret true false, s') ->
  s_out s' = Some o -> payload o = Some (d, c, meta) ->
  exists kf m0, parse_manifest kf = Ok m0
    /\ (forall n, assoc "manifest.raucm" (s_root s) = Some (Reg n) -> e_parse e (s_cont s n) = Some kf)
    /\ forall i f n, In i (mf_images m0) -> im_filename i = Some f -> In "block-hash-index" (im_adaptive i) ->
         assoc f (s_root s) = Some (Reg n) ->
         (forall j, In j (mf_images m0) -> ~ In f (touched_by j) /\ im_filename j <> Some (f ++ ".block-hash-index")%string) ->
         exists k, assoc (f ++ ".block-hash-index")%string d = Some (Reg k) /\ c k = CIndex (s_cont s n).
Proof.
  intros e s s' o0 d0 c0 meta0 O IO H OE PE.
  destruct (success_inv _ _ _ O H) as (t1 & t2 & t3 & kf & m & root1 & wd0 & m0 & l & nf & meta & u & t4 & t5 & m' & d & j & o & ms &
    LP & NF & FS & PP & RM & -> & C2 & N2 & S1 & L1 & W1 & W2 & PM & CI & CC & (n & OM & EP) & -> & FL & W3 & SD & J1 & J2 & CT & -> & Z1 & Z2 & Z3 & Z4 & Z5 & RT).
  rewrite Z1 in OE. injection OE as <-. rewrite (layers_payload _ _ _ _ _ _ Z2) in PE. injection PE as <- <- <-.
  exists kf, m0. split; [assumption |].
  split. { intros k A. assert (X := open_top _ _ _ root1 _ _ k L1 W1 OM). rewrite <- X; [assumption |].
           rewrite <- (sim_assoc _ _ _ _ S1); [assumption | reflexivity]. }
  intros i f k I F AD A NT.
  assert (NM : f <> "." /\ f <> ".." /\ f <> WD).
  { assert (OK : exists k, open_in e [WD] f t1 = Some k).
    { clear - FL I F. induction FL as [| a b r r' Hab R IH]; [destruct I |]. destruct I as [-> | I]; [| auto].
      unfold summed in Hab. rewrite F in Hab. destruct Hab as (k & OK & _). eauto. }
    destruct OK as [x OK]. unfold open_in in OK. destruct (tget (s_root t1) [WD]) as [[| es | |] |]; try discriminate.
    repeat split; intros ->; destruct (e_max e); discriminate. }
  destruct NM as (NM1 & NM2 & NM3).
  assert (V0 : inv f k (s_cont s k) false t2).
  { split.
    - exists wd0; assumption.
    - unfold ent. rewrite W2. unfold linked in L1. rewrite link_eq in L1. assert (X := each_assoc _ _ _ _ _ _ _ _ _ L1 f NM3).
      rewrite <- (sim_assoc _ _ _ f S1), A in X by (apply notwd_true; assumption). exact X.
    - rewrite N2. apply (IO [f]). constructor. apply assoc_in. assumption.
    - congruence.
    - discriminate. }
  unfold pack_phase in PP. apply mbind_some in PP as ([] & q1 & G & PP). cbn [with_images mf_images] in *.
  assert (NT' : forall x, In x l -> ~ In f (touched_by x) /\ im_filename x <> Some (idx f)).
  { clear - FL NT. intros x Ix. induction FL as [| a b r r' Hab R IH]; [destruct Ix |].
    destruct Ix as [-> | Ix]; [| apply IH; [intros; apply NT; right; assumption | assumption]].
    destruct (NT a (or_introl eq_refl)) as [T1 T2].
    unfold summed in Hab. destruct a. cbn in Hab, T2. destruct im_filename; [destruct Hab as (q & _ & ->) | subst x]; split; assumption. }
  assert (NT0 : forall x, In x l -> ~ In f (touched_by x)) by (intros x Ix; exact (proj1 (NT' x Ix))).
  assert (G' := generate_inv e f k (s_cont s k) l false t2 tt q1 NM1 NM2 NM3 NT0 G V0). clear G. rename G' into G. cbn [orb] in G.
  assert (TR : existsb (fun i => match im_filename i with
                                      | Some g => String.eqb g f && existsb (String.eqb "block-hash-index") (im_adaptive i)
                                      | None => false end) l = true).
  { destruct (summed_in _ _ _ _ _ FL i I) as (i1 & I1 & F1 & V1 & A1 & G1). apply existsb_exists. exists i1. split; [assumption |].
    rewrite F1, F, String.eqb_refl, A1. apply existsb_exists. exists "block-hash-index". split; [assumption | apply String.eqb_refl]. }
  rewrite TR in G. clear TR.
  apply mbind_some in PP as (l2 & q2 & C & PP). cbv zeta in PP.
  apply mbind_some in PP as ([] & q3 & SV & PP). apply mbind_some in PP as ([] & q4 & SQ & PP). injection PP as PPm <-.
  destruct G as [Wg Eg Lg Cg Ig]. destruct (Ig eq_refl) as (x & X1 & X2 & X3). clear Ig Eg Lg Cg.
  assert (FI : fr (out_of (flat_map (fun i => conv_by i ++ dropped_by kf i) l)) (each_image (convert_image e kf [WD] nf) l)).
  { apply fr_each. intros y Iy. apply fr_convert0. intros z Hz. apply in_flat_map. eauto. }
  destruct (fr_ent _ _ _ (idx f) q1 l2 q2 FI) as [E2 D2]; try assumption.
  { intro Hx. apply in_flat_map in Hx as (y & Iy & Hy). apply in_app_or in Hy as [Hy | Hy]; [exact (idx_conv _ _ Hy) |].
    unfold dropped_by in Hy. destruct (NT' y Iy) as [_ NF']. destruct (im_filename y) as [g |]; [| destruct Hy].
    destruct (kf_get kf (image_group y) "convert"); [| destruct Hy]. destruct (existsb _ _); [destruct Hy |]. destruct Hy as [-> | []]. congruence. }
  destruct (fr_cont _ _ _ _ _ _ FI C) as [Cc2 Nn2]. cbn [app] in SV.
  assert (FM := fr_set_contents e (out_of [MF]) MF [] (CText (prepare_manifest (with_images (with_images m0 l) l2))) (out_of_in [MF] MF (or_introl eq_refl))).
  destruct (fr_ent _ [MF] _ (idx f) q2 tt q3 FM) as [E3 D3]; try assumption.
  { intros [Y | []]. apply (f_equal lastc) in Y. unfold idx in Y. rewrite lastc_app in Y. discriminate. }
  destruct (fr_cont _ _ _ _ _ _ FM SV) as [Cc3 Nn3].
  assert (R4 : s_root q4 = s_root q3 /\ s_cont q4 = s_cont q3).
  { clear - SQ. apply mbind_some in SQ as (x & x' & Gt & Q). injection Gt as <- <-. destruct (s_out q3); [discriminate |].
    apply mbind_some in Q as (a & x & A & Q). injection A as <- <-. destruct (a_ok _); [| discriminate].
    destruct (tget (s_root q3) [WD]) as [[| es | |] |]; try discriminate. injection Q as <-. split; reflexivity. }
  destruct R4 as [R4 C4]. exists x. split.
  - change (assoc (idx f) d = Some (Reg x)). assert (EE : ent (idx f) q3 = Some (Reg x)) by congruence. unfold ent, wdir in EE. unfold wdir in W3. rewrite R4 in W3. rewrite W3 in EE. exact EE.
  - rewrite C4, Cc3 by lia. rewrite Cc2 by assumption. assumption.
Qed.
