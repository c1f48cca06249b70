From Verif Require Import Base Slot Image Handlers SlotWrite SlotWriteSpec SlotWriteProofs.

(** ** splitting *)
Lemma split_in {A} (x y t1 t2 : list A) e : x ++ y = t1 ++ e :: t2 ->
  (exists u, x = t1 ++ e :: u /\ t2 = u ++ y) \/ (exists u, t1 = x ++ u /\ y = u ++ e :: t2).
Proof.
  revert t1. induction x as [|a x IH]; intros t1 E.
  - right. exists t1. auto.
  - destruct t1 as [|b t1]; cbn in E.
    + left. exists x. split; [cbn; congruence|congruence].
    + assert (E1 : a = b) by congruence. assert (E2 : x ++ y = t1 ++ e :: t2) by congruence. subst b.
      destruct (IH _ E2) as [(u & -> & ->)|(u & -> & ->)]; [left; exists u; auto|right; exists u; auto].
Qed.
Lemma forall_split {A} (P : A -> Prop) l t1 e t2 : Forall P l -> l = t1 ++ e :: t2 -> P e.
Proof. intros F ->. apply Forall_app in F. destruct F as [_ F]. now inversion F. Qed.

Definition along (Q : hist -> act -> Prop) (l : hist) : Prop := forall t1 a b t2, l = t1 ++ (a, b) :: t2 -> Q t1 a.
Lemma cut_along (P : lang) Q ev : (forall l, P l -> along Q l) -> (forall t1 a, cleanup a = true -> Q t1 a) -> cut P ev -> along Q ev.
Proof.
  intros H C (l1 & l2 & f & cl & HP & -> & CL & F) t1 a b t2 E. apply split_in in E. destruct E as [(u & -> & _)|(u & -> & E)].
  - eapply (H _ HP). rewrite <- app_assoc. reflexivity.
  - apply split_in in E. destruct E as [(u2 & -> & _)|(u2 & -> & E)].
    + destruct F as [F|(a0 & l2' & F & ->)]; [destruct u; discriminate|]. destruct u as [|x u]; [|destruct u; discriminate]. rewrite app_nil_r.
      assert (a = a0) by (cbn in F; congruence). subst a0. eapply (H _ HP). reflexivity.
    + apply C. apply (forall_split _ _ _ _ _ CL E).
Qed.

(** ** shapes *)
Definition hookish (a : act) : bool := match a with AHook _ _ _ => true | _ => false end.
Definition quiet (l : hist) : Prop := Forall (fun e => modifying (fst e) = false /\ hookish (fst e) = false) l.
Definition hookless (l : hist) : Prop := Forall (fun e => hookish (fst e) = false) l.
Definition tame (c : wctx) (i : image) (l : hist) : Prop := Forall (fun e : act * bool => snd e = false -> harmless c i (fst e)) l.
Definition hookseg (hook : option string) (cmd : string) (en : bool) (l : hist) : Prop :=
  if en then exists q1 env q2, l = q1 ++ (AHook (getopt hook) cmd env, true) :: q2 /\ quiet q1 /\ quiet q2 else quiet l.
Definition stored (file : string) (l : hist) : Prop := exists a, In (a, true) l /\ stores file a = true.

Record shape (c : wctx) (hook : option string) (i : image) (l : hist) : Prop := mkShape {
  sh_parts : exists A W B E, l = A ++ W ++ B ++ E /\
    hookseg hook pre_cmd (has_hook hook (im_pre i)) A /\
    hookless W /\ Forall (fun e => activates (fst e) = false) W /\ (emptyfs i = true \/ stored (getopt (im_filename i)) W) /\
    hookseg hook post_cmd (has_hook hook (im_post i)) B /\
    hookless E /\ Forall (fun e => modifying (fst e) = true -> activates (fst e) = true) E;
  sh_tame : tame c i l }.

Lemma quiet_nil : quiet []. Proof. constructor. Qed.
Lemma quiet_mount c s l : L_mount c s l -> quiet l.
Proof. intros ->. repeat constructor. Qed.
Lemma quiet_umount c s l : L_umount c s l -> quiet l.
Proof. intros [b ->]. repeat constructor. Qed.
Lemma quiet_hookless l : quiet l -> hookless l.
Proof. apply Forall_impl. tauto. Qed.
Lemma activates_modifying a : activates a = true -> modifying a = true.
Proof. destruct a; discriminate || reflexivity. Qed.
Lemma quiet_inactive l : quiet l -> Forall (fun e => activates (fst e) = false) l.
Proof. apply Forall_impl. intros [a b] [M _]. cbn in *. destruct (activates a) eqn:E; [|reflexivity]. rewrite (activates_modifying _ E) in M. discriminate. Qed.
Lemma hookseg_hook c hook en cmd i s mp vars l : L_hook c hook en cmd i s mp vars l -> hookseg hook cmd (has_hook hook en) l.
Proof.
  unfold L_hook, hookseg. destruct (has_hook hook en); cbn [opt]; [|intros ->; apply quiet_nil]. intros ->.
  eexists [], _, []. split; [reflexivity|]. split; apply quiet_nil.
Qed.
Lemma hookseg_mounted c hook en cmd i s l : L_hook_mounted c hook en cmd i s l -> hookseg hook cmd (has_hook hook en) l.
Proof.
  unfold L_hook_mounted, hookseg. destruct (has_hook hook en); cbn [opt]; [|intros ->; apply quiet_nil].
  intros (a & b & -> & HA & (x & y & -> & -> & HY)). eexists a, _, y. split; [reflexivity|]. split; [eapply quiet_mount; eauto|eapply quiet_umount; eauto].
Qed.
Lemma tame_app c i a b : tame c i a -> tame c i b -> tame c i (a ++ b).
Proof. intros. now apply Forall_app. Qed.
Lemma tame_one c i a l : one a l -> tame c i l.
Proof. intros ->. constructor; [discriminate|constructor]. Qed.
Lemma tame_hook c' c hook en cmd i s mp vars l : L_hook c' hook en cmd i s mp vars l -> tame c i l.
Proof. unfold L_hook. destruct (has_hook hook en); [apply tame_one|intros ->; constructor]. Qed.
Lemma tame_mount c' c i s l : L_mount c' s l -> tame c i l.
Proof. intros ->. repeat constructor; discriminate. Qed.
Lemma tame_umount c' c i s l : L_umount c' s l -> tame c i l.
Proof. intros [b ->]. repeat constructor. discriminate. Qed.
Lemma tame_mounted c i s (P : lang) l : (forall l0, P l0 -> tame c i l0) -> L_mounted c s P l -> tame c i l.
Proof. intros H (a & b & -> & HA & (x & y & -> & HX & HY)). apply tame_app; [eapply tame_mount; eauto|]. apply tame_app; [auto|eapply tame_umount; eauto]. Qed.
Lemma tame_hookm c hook en cmd i s l : L_hook_mounted c hook en cmd i s l -> tame c i l.
Proof. unfold L_hook_mounted. destruct (has_hook hook en); [apply tame_mounted, tame_one|intros ->; constructor]. Qed.

Lemma rev_mount dev mp type opts : nth 0 (rev (tl (mount_argv dev mp type opts))) "" = mp.
Proof. unfold mount_argv. destruct opts; reflexivity. Qed.
Lemma nth_mount_src dev mp type opts : nth 1 (rev (tl (mount_argv dev mp type opts))) "" = if String.eqb type "jffs2" then basename dev else dev.
Proof. unfold mount_argv. destruct opts; reflexivity. Qed.

Lemma tame_casync n c i file dest out l : L_casync n c i file dest out l -> tame c i l.
Proof.
  intros H. destruct H; unfold tame; repeat (constructor; [|]); try constructor; cbn [snd fst]; try discriminate; intros; cbn [harmless]; eauto.
  exists sd. split; [assumption|]. unfold mount_act. cbn [harmless]. apply rev_mount.
Qed.
Lemma hookless_casync n c i file dest out l : L_casync n c i file dest out l -> hookless l /\ Forall (fun e => activates (fst e) = false) l.
Proof. intros H. destruct H; split; repeat constructor. Qed.
Lemma mem_last (x : string) l y : smem x (l ++ [x; y]) = true.
Proof. unfold smem. rewrite existsb_app. cbn. rewrite String.eqb_refl. now rewrite Bool.orb_true_r. Qed.
Lemma stores_casync c args file seed dest out : stores file (casync_act c args file seed dest out) = true.
Proof.
  unfold casync_act. cbn [stores orb]. apply andb_true_iff. split.
  - unfold casync_argv, modifying, modifies. destruct (wx_desync c); reflexivity.
  - unfold casync_argv. rewrite !app_assoc. apply mem_last.
Qed.
Lemma stored_casync n c i file dest out l : L_casync n c i file dest out l -> stored file l.
Proof. intros H. destruct H; (eexists; split; [|apply stores_casync]); cbn; eauto 10. Qed.
Lemma stored_app_l file a b : stored file a -> stored file (a ++ b).
Proof. intros (x & H & S). exists x. split; [apply in_or_app; auto|exact S]. Qed.
Lemma stored_app_r file a b : stored file b -> stored file (a ++ b).
Proof. intros (x & H & S). exists x. split; [apply in_or_app; auto|exact S]. Qed.

(** what the content part of a handler looks like *)
Definition content (c : wctx) (i : image) (file : string) (l : hist) : Prop :=
  hookless l /\ Forall (fun e => activates (fst e) = false) l /\ stored file l /\ tame c i l.
Lemma content_casync n c i file dest out l : L_casync n c i file dest out l -> content c i file l.
Proof. intros H. pose proof (hookless_casync _ _ _ _ _ _ _ H). split; [tauto|]. split; [tauto|]. split; [eapply stored_casync; eauto|eapply tame_casync; eauto]. Qed.
Lemma content_one c i file a l : one a l -> hookish a = false -> activates a = false -> stores file a = true -> content c i file l.
Proof.
  intros -> A B C. split; [repeat constructor; exact A|]. split; [repeat constructor; exact B|]. split; [|repeat constructor; discriminate].
  exists a. split; [now left|exact C].
Qed.
Lemma stores_tar file dest : stores file (ARun (tar_argv file dest) (Some file) None) = true.
Proof. cbn [stores]. now rewrite String.eqb_refl. Qed.
Lemma content_unpack c i file s l : L_unpack c i file s l -> content c i file l.
Proof.
  unfold L_unpack. destruct (_ || _); [apply content_casync|]. intros H. eapply content_one; [exact H|reflexivity|reflexivity|apply stores_tar].
Qed.
Lemma content_write c i file s l : L_write c i file s l -> content c i file l.
Proof.
  unfold L_write. destruct (has_suffix ".caibx" file); [apply content_casync|]. intros H. eapply content_one; [exact H|reflexivity|reflexivity|]. cbn. apply String.eqb_refl.
Qed.
Definition plain (c : wctx) (i : image) (l : hist) : Prop := hookless l /\ Forall (fun e => activates (fst e) = false) l /\ tame c i l.
Lemma plain_one c i a l : one a l -> hookish a = false -> activates a = false -> plain c i l.
Proof. intros -> A B. split; [repeat constructor; exact A|]. split; [repeat constructor; exact B|repeat constructor; discriminate]. Qed.
Lemma plain_app c i a b : plain c i a -> plain c i b -> plain c i (a ++ b).
Proof. intros (A1 & A2 & A3) (B1 & B2 & B3). split; [now apply Forall_app|]. split; [now apply Forall_app|now apply tame_app]. Qed.
Lemma content_l c i file a b : content c i file a -> plain c i b -> content c i file (a ++ b).
Proof. intros (A1 & A2 & A3 & A4) (B1 & B2 & B3). split; [now apply Forall_app|]. split; [now apply Forall_app|]. split; [now apply stored_app_l|now apply tame_app]. Qed.
Lemma content_r c i file a b : plain c i a -> content c i file b -> content c i file (a ++ b).
Proof. intros (B1 & B2 & B3) (A1 & A2 & A3 & A4). split; [now apply Forall_app|]. split; [now apply Forall_app|]. split; [now apply stored_app_r|now apply tame_app]. Qed.
Lemma content_ubi c i file s l : L_ubi c i file s l -> content c i file l.
Proof.
  intros (a & b & -> & HA & (a2 & b2 & -> & HA2 & (a3 & b3 & -> & HA3 & HB3))).
  apply content_r; [eapply plain_one; eauto|]. apply content_r; [eapply plain_one; eauto|]. apply content_l; [|eapply plain_one; eauto].
  destruct (has_suffix ".caibx" file); [eapply content_casync; eauto|]. eapply content_one; eauto. cbn. apply String.eqb_refl.
Qed.
Lemma plain_mount c i s l : L_mount c s l -> plain c i l.
Proof. intros H. split; [eapply quiet_hookless, quiet_mount; eauto|]. split; [eapply quiet_inactive, quiet_mount; eauto|eapply tame_mount; eauto]. Qed.

Lemma shape_intro c hook i A W B E :
  hookseg hook pre_cmd (has_hook hook (im_pre i)) A -> tame c i A ->
  (content c i (getopt (im_filename i)) W \/ emptyfs i = true /\ plain c i W) ->
  hookseg hook post_cmd (has_hook hook (im_post i)) B -> tame c i B ->
  hookless E -> Forall (fun e => modifying (fst e) = true -> activates (fst e) = true) E -> tame c i E ->
  shape c hook i (A ++ W ++ B ++ E).
Proof.
  intros HA TA HW HB TB HE ME TE. split.
  - exists A, W, B, E. split; [reflexivity|]. split; [exact HA|]. destruct HW as [(W1 & W2 & W3 & W4)|(EF & W1 & W2 & W3)]; auto 10.
  - assert (TW : tame c i W) by (destruct HW as [HW|[_ HW]]; [apply HW|apply HW]). repeat apply tame_app; auto.
Qed.
Lemma shape_plain c hook i A W B :
  hookseg hook pre_cmd (has_hook hook (im_pre i)) A -> tame c i A -> content c i (getopt (im_filename i)) W ->
  hookseg hook post_cmd (has_hook hook (im_post i)) B -> tame c i B -> shape c hook i (A ++ W ++ B).
Proof. intros. rewrite <- (app_nil_r B). apply shape_intro; auto; constructor. Qed.

Lemma shape_fill c hook i s A F l : 
  hookseg hook pre_cmd (has_hook hook (im_pre i)) A -> tame c i A -> plain c i F ->
  L_fill c hook (emptyfs i) i (getopt (im_filename i)) s l \/ L_fill c hook false i (getopt (im_filename i)) s l -> shape c hook i (A ++ F ++ l).
Proof.
  intros HA TA PF HL.
  assert (X : exists M U B E, l = M ++ (U ++ B) ++ E /\ L_mount c s M /\ (content c i (getopt (im_filename i)) U \/ emptyfs i = true /\ U = []) /\
     L_hook c hook (im_post i) post_cmd i s (Some (mount_point c s)) [] B /\ L_umount c s E).
  { destruct HL as [(M & r & -> & HM & (u & E & -> & (U & B & -> & HU & HB) & HE))|(M & r & -> & HM & (u & E & -> & (U & B & -> & HU & HB) & HE))].
    - exists M, U, B, E. repeat split; auto. destruct (emptyfs i); [right; split; [reflexivity|exact HU]|left; eapply content_unpack; eauto].
    - exists M, U, B, E. repeat split; auto. left. eapply content_unpack; eauto. }
  destruct X as (M & U & B & E & -> & HM & HU & HB & HE).
  replace (A ++ F ++ M ++ (U ++ B) ++ E) with (A ++ (F ++ M ++ U) ++ B ++ E) by now rewrite <- !app_assoc.
  apply shape_intro; auto.
  - destruct HU as [HU|[EF ->]].
    + left. apply content_r; [exact PF|]. apply content_r; [eapply plain_mount; eauto|exact HU].
    + right. split; [exact EF|]. apply plain_app; [exact PF|]. rewrite app_nil_r. eapply plain_mount; eauto.
  - eapply hookseg_hook; eauto.
  - eapply tame_hook; eauto.
  - eapply quiet_hookless, quiet_umount; eauto.
  - eapply Forall_impl; [|eapply quiet_umount; exact HE]. intros e [X _] Y. congruence.
  - eapply tame_umount; eauto.
Qed.

Lemma part_seeds c s i sd : seeds (part_ctx c s) i sd -> seeds c i sd.
Proof.
  unfold seeds, part_ctx. cbn. intros (A & B & C). split; [exact A|]. split; [|exact C]. intros X. apply B. destruct (String.eqb_spec (sl_name sd) (sl_name s)) as [E|E]; [|exact X].
  cbn. rewrite E in X. exact X.
Qed.

Lemma shape_handler h c hook i s l : h <> H_hook_install -> L_handler h c hook i s l -> shape c hook i l.
Proof.
  intros NH H. destruct h; cbn [L_handler] in H; try congruence.
  - destruct H as (A & r & -> & HA & (W & r2 & -> & HW & (R & B & -> & HR & HB))). replace (A ++ W ++ R ++ B) with (A ++ (W ++ R) ++ B) by now rewrite <- app_assoc.
    apply shape_plain; [eapply hookseg_mounted; eauto|eapply tame_hookm; eauto| |eapply hookseg_mounted; eauto|eapply tame_hookm; eauto].
    apply content_l; [eapply content_write; eauto|]. destruct (sx_resize _ && _); [eapply plain_one; eauto|rewrite HR; repeat constructor].
  - destruct H as (A & r & -> & HA & (W & B & -> & HW & HB)).
    apply shape_plain; [eapply hookseg_hook; eauto|eapply tame_hook; eauto|eapply content_write; eauto|eapply hookseg_hook; eauto|eapply tame_hook; eauto].
  - destruct H as (A & r & -> & HA & (W & B & -> & HW & HB)).
    apply shape_plain; [eapply hookseg_hook; eauto|eapply tame_hook; eauto|eapply content_ubi; eauto|eapply hookseg_hook; eauto|eapply tame_hook; eauto].
  - destruct H as (A & r & -> & HA & (W & B & -> & HW & HB)).
    apply shape_plain; [eapply hookseg_mounted; eauto|eapply tame_hookm; eauto|eapply content_ubi; eauto|eapply hookseg_mounted; eauto|eapply tame_hookm; eauto].
  - destruct H as (A & r & -> & HA & (W & B & -> & HW & HB)).
    apply shape_plain; [eapply hookseg_hook; eauto|eapply tame_hook; eauto| |eapply hookseg_hook; eauto|eapply tame_hook; eauto].
    eapply content_one; eauto. cbn. rewrite String.eqb_refl. now rewrite ?Bool.orb_true_r.
  - destruct H as (A & r & -> & HA & (W & r2 & -> & HW & (R & B & -> & HR & HB))). replace (A ++ W ++ R ++ B) with (A ++ (W ++ R) ++ B) by now rewrite <- app_assoc.
    apply shape_plain; [eapply hookseg_hook; eauto|eapply tame_hook; eauto| |eapply hookseg_hook; eauto|eapply tame_hook; eauto].
    apply content_r; [eapply plain_one; eauto|]. eapply content_one; eauto. cbn. now rewrite String.eqb_refl.
  - destruct H as (A & r & -> & HA & (W & B & -> & HW & HB)).
    eapply shape_fill; [eapply hookseg_hook; eauto|eapply tame_hook; eauto|eapply plain_one; eauto|left; exact HB].
  - destruct H as (A & r & -> & HA & (W & B & -> & HW & HB)).
    eapply shape_fill; [eapply hookseg_mounted; eauto|eapply tame_hookm; eauto|eapply plain_one; eauto|right; exact HB].
  - destruct H as (A & r & -> & HA & (W & B & -> & HW & HB)).
    eapply shape_fill; [eapply hookseg_hook; eauto|eapply tame_hook; eauto|eapply plain_one; eauto|right; exact HB].
  - destruct H as (A & r & -> & HA & (W & B & -> & HW & HB)).
    eapply shape_fill; [eapply hookseg_mounted; eauto|eapply tame_hookm; eauto|eapply plain_one; eauto|right; exact HB].
  - (* eMMC *)
    destruct H as (l1 & l2 & -> & (F & r1 & -> & HF & (A & r2 & -> & HA & (C & r3 & -> & HC & (W & r4 & -> & HW & (B & R & -> & HB & HR))))) & (S1 & e & -> & HS1 & ->)).
    rewrite app_nil_r. replace ((F ++ A ++ C ++ W ++ B ++ R) ++ S1) with ((F ++ A) ++ (C ++ W) ++ B ++ (R ++ S1)) by now rewrite <- !app_assoc.
    apply shape_intro.
    + pose proof (hookseg_hook _ _ _ _ _ _ _ _ _ HA) as HS. unfold hookseg in *. rewrite HF in *. destruct (has_hook hook (im_pre i)).
      * destruct HS as (q1 & env & q2 & -> & Q1 & Q2). exists ((AForceRo (sl_device (emmc_part c s)) false, true) :: q1), env, q2. split; [reflexivity|]. split; [|exact Q2].
        constructor; [split; reflexivity|exact Q1].
      * constructor; [split; reflexivity|exact HS].
    + apply tame_app; [eapply tame_one; eauto|eapply tame_hook; eauto].
    + left. apply content_r; [eapply plain_one; eauto|]. eapply content_one; eauto. cbn. apply String.eqb_refl.
    + eapply hookseg_hook; eauto.
    + eapply tame_hook; eauto.
    + rewrite HR, HS1. repeat constructor.
    + rewrite HR, HS1. repeat constructor. discriminate.
    + apply tame_app; eapply tame_one; eauto.
  - destruct H as (A & r & -> & HA & (C & r2 & -> & HC & (W & r3 & -> & HW & (B & E & -> & HB & HE)))).
    replace (A ++ C ++ W ++ B ++ E) with (A ++ (C ++ W) ++ B ++ E) by now rewrite <- !app_assoc.
    apply shape_intro; [eapply hookseg_hook; eauto|eapply tame_hook; eauto| |eapply hookseg_hook; eauto|eapply tame_hook; eauto|rewrite HE; repeat constructor|rewrite HE; repeat constructor|eapply tame_one; eauto].
    left. apply content_r; [eapply plain_one; eauto|]. eapply content_one; eauto. cbn. apply String.eqb_refl.
  - destruct H as (A & r & -> & HA & (C & r2 & -> & HC & (W & r3 & -> & HW & (B & E & -> & HB & HE)))).
    replace (A ++ C ++ W ++ B ++ E) with (A ++ (C ++ W) ++ B ++ E) by now rewrite <- !app_assoc.
    apply shape_intro; [eapply hookseg_hook; eauto|eapply tame_hook; eauto| |eapply hookseg_hook; eauto|eapply tame_hook; eauto|rewrite HE; repeat constructor|rewrite HE; repeat constructor|eapply tame_one; eauto].
    left. apply content_r; [eapply plain_one; eauto|]. eapply content_one; eauto. cbn. apply String.eqb_refl.
  - destruct H as (A & r & -> & HA & HR).
    assert (AR : forall st hf a, L_area s (getopt (im_filename i)) st hf a -> content c i (getopt (im_filename i)) a).
    { intros st hf a (x & y & -> & HX & HY). apply content_r; [eapply plain_one; eauto|]. eapply content_one; eauto. cbn. apply String.eqb_refl. }
    assert (X : exists W1 W2 B, r = W1 ++ W2 ++ B /\ content c i (getopt (im_filename i)) W1 /\ content c i (getopt (im_filename i)) W2 /\ L_post c hook i s (raw_vars c s) B).
    { destruct (wx_clear c) as [[|]|]; destruct HR as (W1 & r2 & -> & HW1 & (W2 & B & -> & HW2 & HB)); exists W1, W2, B; eauto 10. }
    destruct X as (W1 & W2 & B & -> & C1 & C2 & HB). replace (A ++ W1 ++ W2 ++ B) with (A ++ (W1 ++ W2) ++ B) by now rewrite <- app_assoc.
    apply shape_plain; [eapply hookseg_hook; eauto|eapply tame_hook; eauto| |eapply hookseg_hook; eauto|eapply tame_hook; eauto].
    apply content_l; [exact C1|]. destruct C2 as (X1 & X2 & _ & X3). split; [exact X1|]. split; [exact X2|exact X3].
Qed.
