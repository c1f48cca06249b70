From Verif Require Import Base Slot Image Handlers KeyFile KeyFileLemmas SlotWrite SlotWriteSpec SlotWriteProofs SlotWriteTop SlotWriteThms SlotWriteBal SlotWriteConf SlotWriteEnv SlotWriteRecipe.

(** ** what each action may rely on, from the program *)
Definition Inv (c : wctx) (mp : string -> option string) (w : wst) : Prop :=
  forall n m, ws_mp w n = Some m -> mp n = Some m \/
    m = (wx_prefix c ++ "/" ++ n)%string /\ exists args, In (ARun ("mount" :: args) None None, true) (ws_tr w) /\ nth 0 (rev args) "" = m.
Definition emits (c : wctx) (mp : string -> option string) (Q : hist -> act -> Prop) (m : wprog) : Prop :=
  forall w r w', Inv c mp w -> m w = (r, w') ->
    Inv c mp w' /\ exists ev, ws_tr w' = ws_tr w ++ ev /\ forall t1 a b t2, ev = t1 ++ (a, b) :: t2 -> Q (ws_tr w ++ t1) a.

Lemma Inv_ext c mp w w' ev : Inv c mp w -> ws_tr w' = ws_tr w ++ ev -> (forall n m, ws_mp w' n = Some m -> ws_mp w n = Some m) -> Inv c mp w'.
Proof.
  intros HI T M n m H. apply M in H. destruct (HI n m H) as [X|(X & args & IN & NT)]; [now left|right]. split; [exact X|]. exists args.
  split; [rewrite T; apply in_or_app; now left|exact NT].
Qed.
Lemma emits_step c mp (Q : hist -> act -> Prop) o a : (forall t, Q t a) -> emits c mp Q (step o a).
Proof.
  intros H w r w' HI E. apply step_inv in E. destruct E as [T M]. split; [eapply Inv_ext; eauto; congruence|]. exists [(a, r)]. split; [exact T|].
  intros t1 x b t2 X. destruct t1 as [|? [|? ?]]; try discriminate. assert (a = x) by (cbn in X; congruence). subst. apply H.
Qed.
Lemma emits_skip c mp (Q : hist -> act -> Prop) : emits c mp Q skip.
Proof. intros w r w' HI E. unfold skip in E. assert (w' = w) by congruence. subst. split; [exact HI|]. exists []. rewrite app_nil_r. split; [reflexivity|]. intros [|] a b t2 X; discriminate. Qed.
Lemma emits_refuse c mp (Q : hist -> act -> Prop) : emits c mp Q refuse.
Proof. intros w r w' HI E. unfold refuse in E. assert (w' = w) by congruence. subst. split; [exact HI|]. exists []. rewrite app_nil_r. split; [reflexivity|]. intros [|] a b t2 X; discriminate. Qed.
Lemma emits_glue (Q : hist -> act -> Prop) t0 e1 e2 :
  (forall t1 a b t2, e1 = t1 ++ (a, b) :: t2 -> Q (t0 ++ t1) a) ->
  (forall t1 a b t2, e2 = t1 ++ (a, b) :: t2 -> Q ((t0 ++ e1) ++ t1) a) ->
  forall t1 a b t2, e1 ++ e2 = t1 ++ (a, b) :: t2 -> Q (t0 ++ t1) a.
Proof.
  intros A B t1 a b t2 X. apply split_in in X. destruct X as [(u & -> & _)|(u & -> & ->)]; [eapply A; eauto|]. rewrite app_assoc. eapply B. reflexivity.
Qed.
Lemma emits_seq c mp (Q : hist -> act -> Prop) m k : emits c mp Q m -> emits c mp Q k -> emits c mp Q (m &&> k).
Proof.
  intros A B w r w' HI E. unfold andthen in E. destruct (m w) as [b w1] eqn:E1. destruct (A _ _ _ HI E1) as (I1 & e1 & T1 & X1). destruct b.
  - destruct (B _ _ _ I1 E) as (I2 & e2 & T2 & X2). split; [exact I2|]. exists (e1 ++ e2). split; [rewrite T2, T1, app_assoc; reflexivity|].
    rewrite T1 in X2. now apply emits_glue.
  - assert (w' = w1) by congruence. subst. eauto.
Qed.
Lemma emits_finally c mp (Q : hist -> act -> Prop) m k : emits c mp Q m -> emits c mp Q k -> emits c mp Q (finally m k).
Proof.
  intros A B w r w' HI E. unfold finally in E. destruct (m w) as [b w1] eqn:E1. destruct (A _ _ _ HI E1) as (I1 & e1 & T1 & X1).
  destruct (k w1) as [b2 w2] eqn:E2. assert (w' = w2) by congruence. subst.
  destruct (B _ _ _ I1 E2) as (I2 & e2 & T2 & X2). split; [exact I2|]. exists (e1 ++ e2). split; [rewrite T2, T1, app_assoc; reflexivity|].
  rewrite T1 in X2. now apply emits_glue.
Qed.
Lemma emits_when c mp (Q : hist -> act -> Prop) b m : emits c mp Q m -> emits c mp Q (when b m).
Proof. destruct b; [auto|intros _; apply emits_skip]. Qed.

(** the statement: mounting and casync *)
Definition Qm (c : wctx) (i : image) (s : slot) (mp : string -> option string) (t : hist) (a : act) : Prop :=
  match a with
  | ARun (prog :: args) inp out =>
      (prog = "mount" -> inp = None /\ out = None /\ exists x, (x = s \/ seeds c i x) /\
         args = ["-t"; sl_type x] ++ match sx_mount (wx_ext c (sl_name x)) with Some o => ["-o"; o] | None => [] end ++
                [if String.eqb (sl_type x) "jffs2" then basename (sl_device x) else sl_device x; (wx_prefix c ++ "/" ++ sl_name x)%string] /\
         In (AExists (sl_device x), true) t /\ In (AMkdir (wx_prefix c ++ "/" ++ sl_name x)%string, true) t) /\
      (prog = "casync" \/ prog = "desync" -> inp = None /\ casync_call c i mp t (prog :: args) out)
  | _ => True
  end.
Definition calm (a : act) : bool :=
  match a with ARun (p :: _) _ _ => negb (smem p ["mount"; "casync"; "desync"]) | _ => true end.
Lemma Qm_calm c i s mp t a : calm a = true -> Qm c i s mp t a.
Proof.
  destruct a as [[|p argv] inp out| | | | | | | | | | | | | | |]; cbn [Qm calm]; try exact (fun _ => Logic.I). unfold smem. cbn [existsb]. intros H. apply negb_true_iff in H.
  split; [intros ->; discriminate|]. intros [-> | ->]; discriminate.
Qed.

Lemma emits_mount o c i s x mp : x = s \/ seeds c i x -> emits c mp (Qm c i s mp) (mount_slot o c x).
Proof.
  intros HX w r w' HI E. destruct (ws_mp w (sl_name x)) eqn:M.
  { unfold mount_slot in E. rewrite M in E. assert (w' = w) by congruence. subst. split; [exact HI|]. exists []. rewrite app_nil_r. split; [reflexivity|]. intros [|] a b t2 X; discriminate. }
  apply mount_slot_inv in E; [|exact M]. destruct E as (ev & T & C).
  assert (P : forall (e : hist) b l, (forall t1 a b' t2, (e ++ (mount_act c x, b) :: l) = t1 ++ (a, b') :: t2 -> True) -> True) by auto. clear P.
  assert (QM : Qm c i s mp (ws_tr w ++ [(AExists (sl_device x), true); (AMkdir (mount_point c x), true)]) (mount_act c x)).
  { unfold mount_act, mount_argv. cbn [app Qm]. split; [intros _|intros [?|?]; discriminate]. split; [reflexivity|]. split; [reflexivity|]. exists x. split; [exact HX|]. split; [reflexivity|].
    split; apply in_or_app; right; [left; reflexivity|right; left; reflexivity]. }
  destruct C as [(-> & -> & M1)|(-> & M1 & F)].
  - split.
    + intros n m H. rewrite M1 in H. destruct (String.eqb_spec n (sl_name x)) as [->|NE].
      * right. assert (m = mount_point c x) by congruence. subst m. split; [reflexivity|].
        exists (tl (mount_argv (sl_device x) (mount_point c x) (sl_type x) (sx_mount (wx_ext c (sl_name x))))). split; [|apply rev_mount].
        rewrite T. apply in_or_app. right. right. right. left. reflexivity.
      * destruct (HI n m H) as [X|(X & args & IN & NT)]; [now left|right]. split; [exact X|]. exists args. split; [rewrite T; apply in_or_app; now left|exact NT].
    + eexists. split; [exact T|]. intros t1 a b t2 X. destruct t1 as [|? [|? [|? [|? ?]]]]; try discriminate; cbn [app] in X.
      * apply Qm_calm. assert (a = AExists (sl_device x)) by congruence. now subst.
      * apply Qm_calm. assert (a = AMkdir (mount_point c x)) by congruence. now subst.
      * injection X as <- <- <- _. exact QM.
  - split; [eapply Inv_ext; eauto; congruence|]. exists ev. split; [exact T|]. intros t1 a b t2 X. destruct F as [->|[->|[b0 ->]]].
    + destruct t1 as [|? [|? ?]]; try discriminate. apply Qm_calm. assert (a = AExists (sl_device x)) by (cbn in X; congruence). now subst.
    + destruct t1 as [|? [|? [|? ?]]]; try discriminate; apply Qm_calm; cbn [app] in X.
      * assert (a = AExists (sl_device x)) by congruence. now subst.
      * assert (a = AMkdir (mount_point c x)) by congruence. now subst.
    + destruct t1 as [|? [|? [|? [|? [|? ?]]]]]; try discriminate; cbn [app] in X.
      * apply Qm_calm. assert (a = AExists (sl_device x)) by congruence. now subst.
      * apply Qm_calm. assert (a = AMkdir (mount_point c x)) by congruence. now subst.
      * injection X as <- <- <- _. exact QM.
      * apply Qm_calm. assert (a = ARmdir (mount_point c x)) by congruence. now subst.
Qed.
Lemma emits_umount o c i s x mp : emits c mp (Qm c i s mp) (umount_slot o x).
Proof.
  intros w r w' HI E. unfold umount_slot in E. destruct (ws_mp w (sl_name x)) as [m|] eqn:M.
  2:{ assert (w' = w) by congruence. subst. split; [exact HI|]. exists []. rewrite app_nil_r. split; [reflexivity|]. intros [|] a b t2 X; discriminate. }
  destruct (step o _ w) as [b1 w1] eqn:E1. apply step_inv in E1. destruct E1 as [T1 M1]. destruct b1.
  - destruct (step o (ARmdir m) w1) as [b2 w2] eqn:E2. apply step_inv in E2. destruct E2 as [T2 M2]. cbn [snd] in E.
    assert (w' = set_mp (sl_name x) None w2) by congruence. subst w'.
    assert (T : ws_tr (set_mp (sl_name x) None w2) = ws_tr w ++ [(ARun ["umount"; m] None None, true); (ARmdir m, b2)]) by (cbn; rewrite T2, T1, <- app_assoc; reflexivity).
    split.
    + eapply Inv_ext; [exact HI|exact T|]. intros n m' H. cbn [set_mp ws_mp] in H. destruct (String.eqb n (sl_name x)); [discriminate|congruence].
    + eexists. split; [exact T|]. intros t1 a b t2 X. apply Qm_calm. destruct t1 as [|? [|? [|? ?]]]; try discriminate; cbn [app] in X.
      * assert (a = ARun ["umount"; m] None None) by congruence. now subst.
      * assert (a = ARmdir m) by congruence. now subst.
  - assert (w' = w1) by congruence. subst. split; [eapply Inv_ext; eauto; congruence|]. eexists. split; [exact T1|].
    intros t1 a b t2 X. apply Qm_calm. destruct t1 as [|? [|? ?]]; try discriminate. assert (a = ARun ["umount"; m] None None) by (cbn in X; congruence). now subst.
Qed.

Lemma active_member_none c i : active_member c (im_class i) = None -> forall sd, ~ seeds c i sd.
Proof.
  unfold active_member. intros H sd (A & B & C). eapply find_none in H; [|exact A]. cbn beta in H. apply andb_false_iff in H. destruct H as [H|H].
  - apply negb_false_iff, String.eqb_eq in H. congruence.
  - apply String.eqb_neq in H. congruence.
Qed.

(** the extraction itself, after a history [t] in which [seed] was prepared *)
Lemma extract_ok o c i s mp seed dest out w r w' :
  casync_extract o c (getopt (im_filename i)) seed dest out w = (r, w') ->
  (if wx_desync c then seed = None else match seed with Some p => seed_ok c i mp (ws_tr w) p | None => no_seed_ok c i (ws_tr w) end) ->
  ws_mp w' = ws_mp w /\ exists ev, ws_tr w' = ws_tr w ++ ev /\ forall t1 a b t2, ev = t1 ++ (a, b) :: t2 -> Qm c i s mp (ws_tr w ++ t1) a.
Proof.
  intros E HS. unfold casync_extract in E. destruct (wx_casync_args c) as [args|] eqn:CA.
  2:{ unfold refuse in E. assert (w' = w) by congruence. subst. split; [reflexivity|]. exists []. rewrite app_nil_r. split; [reflexivity|]. intros [|] a b t2 X; discriminate. }
  apply step_inv in E. destruct E as [T M]. split; [exact M|]. eexists. split; [exact T|]. intros t1 a b t2 X.
  destruct t1 as [|? [|? ?]]; try discriminate. cbn [app] in X. injection X as <- _ _. rewrite app_nil_r. unfold casync_argv. cbn [app Qm].
  split; [destruct (wx_desync c); discriminate|]. intros _. split; [reflexivity|].
  exists args, (match out with Some _ => "-" | None => dest end), seed. split; [exact CA|]. split; [destruct out; [reflexivity|congruence]|].
  destruct (wx_desync c).
  - subst seed. split; [reflexivity|discriminate].
  - split; [|intros _; exact HS]. destruct seed; reflexivity.
Qed.

Lemma emits_casync o c i s mp dest out : emits c mp (Qm c i s mp) (casync_image o c i (getopt (im_filename i)) dest out).
Proof.
  intros w r w' HI E. unfold casync_image in E.
  assert (direct : forall seed, casync_extract o c (getopt (im_filename i)) seed dest out w = (r, w') ->
    (if wx_desync c then seed = None else match seed with Some p => seed_ok c i mp (ws_tr w) p | None => no_seed_ok c i (ws_tr w) end) ->
    Inv c mp w' /\ exists ev, ws_tr w' = ws_tr w ++ ev /\ forall t1 a b t2, ev = t1 ++ (a, b) :: t2 -> Qm c i s mp (ws_tr w ++ t1) a).
  { intros seed X HS. eapply extract_ok in X; [|exact HS]. destruct X as (M & ev & T & X). split; [eapply Inv_ext; eauto; congruence|]. eauto. }
  destruct (wx_desync c) eqn:DS; [eapply direct; [exact E|reflexivity]|].
  destruct (active_member c (im_class i)) as [sd|] eqn:AM; [|eapply direct; [exact E|left; now apply active_member_none]].
  pose proof (active_member_seeds _ _ _ AM) as SD.
  destruct (has_suffix ".caidx" (getopt (im_filename i))) eqn:SUF.
  - destruct (ws_mp w (sl_name sd)) as [m|] eqn:MS.
    { eapply direct; [exact E|]. exists sd. split; [exact SD|]. rewrite SUF. apply HI, MS. }
    destruct (mount_slot o c sd w) as [b w1] eqn:E1. pose proof E1 as EM. apply mount_slot_inv in EM; [|exact MS]. apply (emits_mount o c i s sd mp) in E1; [|now right|exact HI].
    destruct E1 as (I1 & e1 & T1 & X1). destruct EM as (e1' & T1' & C). assert (e1' = e1) by (rewrite T1 in T1'; now apply app_inv_head in T1'). subst e1'.
    destruct C as [(-> & L1 & M1)|(-> & M1 & F)].
    + assert (S1 : ws_mp w1 (sl_name sd) = Some (mount_point c sd)) by (rewrite M1, String.eqb_refl; reflexivity).
      assert (SO : seed_ok c i mp (ws_tr w1) (mount_point c sd)) by (exists sd; split; [exact SD|]; rewrite SUF; apply I1, S1).
      unfold finally in E. rewrite S1 in E. destruct (casync_extract _ _ _ _ _ _ w1) as [b2 w2] eqn:E2. eapply (extract_ok o c i s mp) in E2; [|rewrite DS; exact SO].
      destruct E2 as (M2 & e2 & T2 & X2). assert (I2 : Inv c mp w2) by (eapply Inv_ext; eauto; congruence).
      destruct (umount_slot o sd w2) as [b3 w3] eqn:E3. assert (w' = w3) by congruence. subst.
      apply (emits_umount o c i s sd mp) in E3; [|exact I2]. destruct E3 as (I3 & e3 & T3 & X3). split; [exact I3|]. exists ((e1 ++ e2) ++ e3).
      split; [rewrite T3, T2, T1, !app_assoc; reflexivity|].
      apply emits_glue; [apply emits_glue; [exact X1|rewrite <- T1; exact X2]|]. rewrite app_assoc, <- T1, <- T2. exact X3.
    + assert (NS : no_seed_ok c i (ws_tr w1)).
      { right. destruct F as [->|[->|[b0 ->]]].
        - exists (AExists (sl_device sd)). split; [rewrite T1; apply in_or_app; right; now left|]. exists sd. auto.
        - exists (AMkdir (mount_point c sd)). split; [rewrite T1; apply in_or_app; right; right; now left|]. exists sd. auto.
        - exists (mount_act c sd). split; [rewrite T1; apply in_or_app; right; right; right; now left|]. exists sd. split; [exact SD|].
          destruct (sx_mount (wx_ext c (sl_name sd))); reflexivity. }
      eapply (extract_ok o c i s mp) in E; [|rewrite DS; exact NS]. destruct E as (M2 & e2 & T2 & X2). split; [eapply Inv_ext; eauto; congruence|].
      exists (e1 ++ e2). split; [rewrite T2, T1, app_assoc; reflexivity|]. apply emits_glue; [exact X1|rewrite <- T1; exact X2].
  - destruct (step o _ w) as [b w1] eqn:E1. apply step_inv in E1. destruct E1 as [T1 M1].
    assert (HS : match (if b then Some (sl_device sd) else None) with Some p => seed_ok c i mp (ws_tr w1) p | None => no_seed_ok c i (ws_tr w1) end).
    { destruct b.
      - exists sd. split; [exact SD|]. rewrite SUF. split; [reflexivity|]. rewrite T1. apply in_or_app. right. now left.
      - right. exists (ASeedStat (sl_device sd)). split; [rewrite T1; apply in_or_app; right; now left|]. exists sd. auto. }
    eapply (extract_ok o c i s mp) in E; [|rewrite DS; exact HS]. destruct E as (M2 & e2 & T2 & X2). split; [eapply (Inv_ext c mp w w' ([_] ++ e2)); [exact HI|rewrite T2, T1, <- app_assoc; reflexivity|congruence]|].
    exists ([(ASeedStat (sl_device sd), b)] ++ e2). split; [rewrite T2, T1, <- app_assoc; reflexivity|]. apply emits_glue; [|rewrite <- T1; exact X2].
    intros t1 a b0 t2 X. apply Qm_calm. destruct t1 as [|? [|? ?]]; try discriminate. assert (a = ASeedStat (sl_device sd)) by (cbn in X; congruence). now subst.
Qed.

Lemma emits_calm c i s mp o a : calm a = true -> emits c mp (Qm c i s mp) (step o a).
Proof. intros H. apply emits_step. intros t. now apply Qm_calm. Qed.
Lemma emits_hook c c' i s mp o hook cmd s' vars : emits c mp (Qm c i s mp) (run_hook o c' hook cmd i s' vars).
Proof.
  destruct hook as [h|]; [|exact (emits_refuse c mp _)]. intros w r w' HI E. unfold run_hook in E. revert E. apply emits_calm; [reflexivity|exact HI].
Qed.
Lemma emits_hook_mounted o c hook cmd i s mp : emits c mp (Qm c i s mp) (mount_and_run_hook o c hook cmd i s).
Proof. unfold mount_and_run_hook. apply emits_seq; [apply emits_mount; now left|]. apply emits_finally; [apply emits_hook|apply emits_umount]. Qed.
Lemma emits_unpack o c i s mp dest : emits c mp (Qm c i s mp) (unpack o c i (getopt (im_filename i)) dest).
Proof.
  unfold unpack. destruct (has_suffix ".caidx" _); [apply emits_casync|]. destruct (has_suffix ".catar" _); [apply emits_casync|]. apply emits_calm. reflexivity.
Qed.
Lemma emits_write o c i s mp : emits c mp (Qm c i s mp) (write_dev o c i (getopt (im_filename i)) s).
Proof. unfold write_dev. destruct (has_suffix ".caibx" _); [apply emits_casync|apply emits_calm; reflexivity]. Qed.
Lemma emits_ubi o c i s mp : emits c mp (Qm c i s mp) (write_ubi o c i (getopt (im_filename i)) s).
Proof.
  unfold write_ubi. apply emits_seq; [apply emits_calm; reflexivity|]. apply emits_seq; [apply emits_calm; reflexivity|]. apply emits_seq; [|apply emits_calm; reflexivity].
  destruct (has_suffix ".caibx" _); [apply emits_casync|apply emits_calm; reflexivity].
Qed.
Lemma emits_fill o c hook empty i s mp : emits c mp (Qm c i s mp) (unpack_mounted o c hook empty i (getopt (im_filename i)) s).
Proof.
  unfold unpack_mounted. apply emits_seq; [apply emits_mount; now left|]. apply emits_finally; [|apply emits_umount].
  apply emits_seq; [destruct empty; [apply emits_skip|apply emits_unpack]|apply emits_when, emits_hook].
Qed.
Lemma emits_guarded c mp (Q : hist -> act -> Prop) o m dev : (forall t, Q t (AForceRo dev true)) -> emits c mp Q m ->
  emits c mp Q (fun w => let (b, w1) := m w in if b then (true, w1) else (false, snd (step o (AForceRo dev true) w1))).
Proof.
  intros HQ D w r w' HI E. destruct (m w) as [b w1] eqn:E1. destruct (D _ _ _ HI E1) as (I1 & e1 & T1 & X1). destruct b.
  - assert (w' = w1) by congruence. subst. eauto.
  - destruct (step o (AForceRo dev true) w1) as [b2 w2] eqn:E2. pose proof (emits_step c mp Q o _ HQ _ _ _ I1 E2) as (I2 & e2 & T2 & X2). cbn [snd] in E.
    assert (w' = w2) by congruence. subst. split; [exact I2|]. exists (e1 ++ e2). split; [rewrite T2, T1, app_assoc; reflexivity|]. apply emits_glue; [exact X1|rewrite <- T1; exact X2].
Qed.
Ltac em := first [apply emits_hook|apply emits_hook_mounted|apply emits_write|apply emits_ubi|apply emits_fill|apply emits_skip|apply emits_refuse
  |(apply emits_calm; reflexivity)|(apply emits_when; em)|(apply emits_seq; [em|em])].
Lemma emits_handler h o c hook i s mp : emits c mp (Qm c i s mp) (slot_handler h o c hook i s).
Proof.
  destruct h; cbn [slot_handler]; unfold img_to_fs, img_to_raw, img_to_ubivol, img_to_ubifs, img_to_nor, img_to_nand, archive_to_ext4, archive_to_ubifs,
    archive_to_vfat, archive_to_jffs2, hook_install, pre_hook, post_hook, pre_hook_mounted, post_hook_mounted, run; try em.
  - unfold img_to_boot_emmc. destruct (wx_realdev c) as [dev|]; [|em]. destruct (wx_bp c) as [bp|]; [|em].
    apply emits_seq; [|apply emits_seq; [em|]].
    + unfold copy_to_bootpart, pre_hook, post_hook. apply emits_guarded; [intros t; now apply Qm_calm|]. em.
    + destruct (wx_bp_after c) as [[a|]|]; [destruct (Nat.eqb _ _)|..]; em.
  - unfold img_to_boot_switch, pre_hook, post_hook. destruct (wx_part c) as [[start size]|]; [|em]. destruct (_ <? _)%Z; em.
  - unfold img_to_boot_switch, pre_hook, post_hook. destruct (wx_part c) as [[start size]|]; [|em]. destruct (_ <? _)%Z; em.
  - unfold img_to_boot_raw_fallback, pre_hook, post_hook. destruct (negb _); [em|]. destruct (negb _); [em|]. destruct (_ <? _)%Z; [em|].
    apply emits_seq; [em|]. destruct (wx_clear c) as [[|]|]; em.
Qed.
Lemma handler_Qm h o c hook i s mp r w' : slot_handler h o c hook i s (mkWst [] mp) = (r, w') -> along (Qm c i s mp) (ws_tr w').
Proof.
  intros E. apply (emits_handler h o c hook i s mp) in E. 2:{ intros n m H. left. exact H. }
  destruct E as (_ & ev & T & X). cbn in T, X. rewrite T. intros t1 a b t2 Y. eapply X. exact Y.
Qed.

Lemma c58_mount_ok2 : forall h o c hook i s mp r w' t1 args inp out b t2,
  slot_handler h o c hook i s (mkWst [] mp) = (r, w') -> ws_tr w' = t1 ++ (ARun ("mount" :: args) inp out, b) :: t2 ->
  exists x, (x = s \/ seeds c i x) /\
    args = ["-t"; sl_type x] ++ match sx_mount (wx_ext c (sl_name x)) with Some o => ["-o"; o] | None => [] end ++
           [if String.eqb (sl_type x) "jffs2" then basename (sl_device x) else sl_device x; (wx_prefix c ++ "/" ++ sl_name x)%string] /\
    (* only after the device was found and the directory made *)
    In (AExists (sl_device x), true) t1 /\ In (AMkdir (wx_prefix c ++ "/" ++ sl_name x)%string, true) t1.
Proof.
  intros h o c hook i s mp r w' t1 args inp out b t2 E X. apply handler_Qm in E. apply E in X. cbn [Qm] in X. destruct X as [X _]. now apply X.
Qed.
Lemma c58_casync_ok : forall h o c hook i s mp r w' t1 prog args inp out b t2,
  slot_handler h o c hook i s (mkWst [] mp) = (r, w') -> ws_tr w' = t1 ++ (ARun (prog :: args) inp out, b) :: t2 ->
  prog = "casync" \/ prog = "desync" -> inp = None /\ casync_call c i mp t1 (prog :: args) out.
Proof.
  intros h o c hook i s mp r w' t1 prog args inp out b t2 E X P. apply handler_Qm in E. apply E in X. cbn [Qm] in X. now apply X.
Qed.
