From Verif Require Import Base Slot Image Handlers KeyFile KeyFileLemmas SlotWrite SlotWriteSpec SlotWriteProofs SlotWriteTop SlotWriteThms SlotWriteBal SlotWriteConf SlotWriteEnv SlotWriteRecipe SlotWriteMore SlotWriteMore2 SlotWriteMore3.

(** ** mount points are removed *)
Definition tidy (ev : hist) : Prop := forall t1 m t2, ev = t1 ++ (AMkdir m, true) :: t2 ->
  (exists b, In (ARmdir m, b) t2) \/ In (ARun ["umount"; m] None None, false) t2.
Lemma tidy_app a b : tidy a -> tidy b -> tidy (a ++ b).
Proof.
  intros A B t1 m t2 X. apply split_in in X. destruct X as [(u & Y & ->)|(u & -> & Y)].
  - destruct (A _ _ _ Y) as [[z IN]|IN]; [left; exists z|right]; apply in_or_app; now left.
  - eapply B; eauto.
Qed.
Lemma tidy_free ev : Forall (fun e => forall m, fst e <> AMkdir m) ev -> tidy ev.
Proof. intros F t1 m t2 X. apply forall_split with (1 := F) in X. destruct (X m eq_refl). Qed.
Lemma tidy_nil : tidy []. Proof. apply tidy_free. constructor. Qed.
Definition tbal (n : string) (mp : option string) (m : wprog) : Prop :=
  forall w r w', ws_mp w n = mp -> m w = (r, w') -> exists ev, ws_tr w' = ws_tr w ++ ev /\ tidy ev.
Lemma tbal_step n mp o a : (forall m, a <> AMkdir m) -> tbal n mp (step o a).
Proof. intros H w r w' _ E. apply step_inv in E. destruct E as [T _]. eexists. split; [exact T|]. apply tidy_free. constructor; [exact H|constructor]. Qed.
Lemma tbal_id n mp (m : wprog) : (forall w r w', m w = (r, w') -> w' = w) -> tbal n mp m.
Proof. intros H w r w' _ E. apply H in E. subst. exists []. rewrite app_nil_r. split; [reflexivity|apply tidy_nil]. Qed.
Lemma tbal_skip n mp : tbal n mp skip. Proof. apply tbal_id. unfold skip. congruence. Qed.
Lemma tbal_refuse n mp : tbal n mp refuse. Proof. apply tbal_id. unfold refuse. congruence. Qed.
Lemma tbal_seq n mp m k : bal n mp m -> tbal n mp m -> tbal n mp k -> tbal n mp (m &&> k).
Proof.
  intros B A K w r w' M E. unfold andthen in E. destruct (m w) as [b w1] eqn:E1. destruct (A _ _ _ M E1) as (e1 & T1 & X1). destruct b.
  - destruct (B _ _ _ M E1) as [M1 _]. destruct (K _ _ _ (M1 eq_refl) E) as (e2 & T2 & X2). exists (e1 ++ e2). split; [rewrite T2, T1, app_assoc; reflexivity|now apply tidy_app].
  - assert (w' = w1) by congruence. subst. eauto.
Qed.
Lemma tbal_when n mp b m : tbal n mp m -> tbal n mp (when b m).
Proof. destruct b; [auto|intros _; apply tbal_skip]. Qed.
Lemma tidy_fail c s ev : ev = [(AExists (sl_device s), false)] \/ ev = [(AExists (sl_device s), true); (AMkdir (mount_point c s), false)] \/
  (exists b, ev = [(AExists (sl_device s), true); (AMkdir (mount_point c s), true); (mount_act c s, false); (ARmdir (mount_point c s), b)]) -> tidy ev.
Proof.
  intros [->|[->|[b ->]]] t1 m t2 X.
  - destruct t1 as [|? [|? ?]]; discriminate.
  - destruct t1 as [|? [|? [|? ?]]]; discriminate.
  - destruct t1 as [|? [|? [|? [|? [|? ?]]]]]; try discriminate. cbn [app] in X. injection X as _ <- <-. left. exists b. right. now left.
Qed.
Lemma tidy_around c s ev1 ev2 ev3 : L_mount c s ev1 -> tidy ev2 -> L_umount c s ev3 \/ ev3 = [(umount_act c s, false)] -> tidy (ev1 ++ ev2 ++ ev3).
Proof.
  intros -> A C. assert (A3 : tidy (ev2 ++ ev3)).
  { apply tidy_app; [exact A|]. apply tidy_free. destruct C as [[b ->]| ->]; repeat constructor; intros m; discriminate. }
  intros t1 m t2 X. destruct t1 as [|? [|? [|? t1]]]; cbn [app] in X; try discriminate.
  - injection X as _ <- <-. destruct C as [[b ->]| ->].
    + left. exists b. right. apply in_or_app. right. right. now left.
    + right. right. apply in_or_app. right. now left.
  - injection X as <- <- <- X. eapply A3. exact X.
Qed.
Lemma tbal_mounted o c s m : tbal (sl_name s) (Some (mount_point c s)) m -> keeps (sl_name s) m -> tbal (sl_name s) None (mount_slot o c s &&> finally m (umount_slot o s)).
Proof.
  intros D K w r w' M E. unfold andthen in E. destruct (mount_slot o c s w) as [b1 w1] eqn:E1.
  apply mount_slot_inv in E1; [|exact M]. destruct E1 as (ev1 & T1 & [(-> & L1 & M1)|(-> & M1 & F1)]).
  2:{ assert (w' = w1) by congruence. subst. exists ev1. split; [exact T1|]. eapply tidy_fail; eauto. }
  assert (M1s : ws_mp w1 (sl_name s) = Some (mount_point c s)) by (rewrite M1, String.eqb_refl; reflexivity).
  unfold finally in E. destruct (m w1) as [b2 w2] eqn:E2.
  assert (M2s : ws_mp w2 (sl_name s) = Some (mount_point c s)) by (rewrite (K _ _ _ E2); congruence). apply D in E2; [|exact M1s]. destruct E2 as (ev2 & T2 & X2).
  destruct (umount_slot o s w2) as [b3 w3] eqn:E3. apply (umount_slot_inv o c) in E3; [|exact M2s]. destruct E3 as (ev3 & T3 & U).
  assert (w' = w3) by congruence. subst. exists (ev1 ++ ev2 ++ ev3). split; [rewrite T3, T2, T1, <- !app_assoc; reflexivity|].
  eapply tidy_around; eauto. destruct U as [(_ & L3 & _)|(_ & _ & ->)]; auto.
Qed.
Lemma tbal_extract n mp o c file seed dest out : tbal n mp (casync_extract o c file seed dest out).
Proof. unfold casync_extract. destruct (wx_casync_args c); [|apply tbal_refuse]. apply tbal_step. discriminate. Qed.
Lemma tbal_casync n mp o c i file dest out : tbal n mp (casync_image o c i file dest out).
Proof.
  intros w r w' M E. unfold casync_image in E. destruct (if wx_desync c then None else _) as [sd|]; [|eapply tbal_extract; eauto].
  destruct (has_suffix ".caidx" file).
  2:{ destruct (step o _ w) as [b w1] eqn:E1. apply step_inv in E1. destruct E1 as [T1 M1]. eapply (tbal_extract n (ws_mp w1 n)) in E; [|reflexivity].
      destruct E as (ev & T & X). exists ([(ASeedStat (sl_device sd), b)] ++ ev). split; [rewrite T, T1, <- app_assoc; reflexivity|]. apply tidy_app; [|exact X].
      apply tidy_free. repeat constructor. discriminate. }
  destruct (ws_mp w (sl_name sd)) eqn:MS; [eapply tbal_extract; eauto|].
  destruct (mount_slot o c sd w) as [b w1] eqn:E1. apply mount_slot_inv in E1; [|exact MS]. destruct E1 as (ev1 & T1 & [(-> & L1 & M1)|(-> & M1 & F1)]).
  - assert (M1s : ws_mp w1 (sl_name sd) = Some (mount_point c sd)) by (rewrite M1, String.eqb_refl; reflexivity).
    unfold finally in E. destruct (casync_extract _ _ _ _ _ _ w1) as [b2 w2] eqn:E2.
    assert (M2s : ws_mp w2 (sl_name sd) = Some (mount_point c sd)) by (rewrite (keeps_casync_extract (sl_name sd) _ _ _ _ _ _ _ _ _ E2); congruence).
    eapply tbal_extract in E2; [|exact M1s]. destruct E2 as (ev2 & T2 & X2).
    destruct (umount_slot o sd w2) as [b3 w3] eqn:E3. apply (umount_slot_inv o c) in E3; [|exact M2s]. destruct E3 as (ev3 & T3 & U).
    assert (w' = w3) by congruence. subst. exists (ev1 ++ ev2 ++ ev3). split; [rewrite T3, T2, T1, <- !app_assoc; reflexivity|].
    eapply tidy_around; eauto. destruct U as [(_ & L3 & _)|(_ & _ & ->)]; auto.
  - eapply (tbal_extract n (ws_mp w1 n)) in E; [|reflexivity]. destruct E as (ev & T & X). exists (ev1 ++ ev). split; [rewrite T, T1, <- app_assoc; reflexivity|].
    apply tidy_app; [eapply tidy_fail; eauto|exact X].
Qed.
Lemma tbal_hook n mp o c hook cmd i s vars : tbal n mp (run_hook o c hook cmd i s vars).
Proof. destruct hook as [h|]; [|apply tbal_refuse]. intros w r w' M E. unfold run_hook in E. eapply tbal_step in E; [exact E|discriminate|exact M]. Qed.
Lemma tbal_hook_mounted o c hook en cmd i s : tbal (sl_name s) None (when (has_hook hook en) (mount_and_run_hook o c hook cmd i s)).
Proof. apply tbal_when, tbal_mounted; [apply tbal_hook|apply keeps_hook]. Qed.
Lemma tbal_write n mp o c i file s : tbal n mp (write_dev o c i file s).
Proof. unfold write_dev. destruct (has_suffix ".caibx" file); [apply tbal_casync|apply tbal_step; discriminate]. Qed.
Lemma tbal_ubi n mp o c i file s : tbal n mp (write_ubi o c i file s).
Proof.
  unfold write_ubi. apply tbal_seq; [apply bal_step; inr|apply tbal_step; discriminate|]. apply tbal_seq; [apply bal_step; inr|apply tbal_step; discriminate|].
  destruct (has_suffix ".caibx" file) eqn:SF.
  - apply tbal_seq; [apply bal_casync; intros X; destruct (caibx_not_caidx _ SF X)|apply tbal_casync|apply tbal_step; discriminate].
  - apply tbal_seq; [apply bal_step; inr|apply tbal_step; discriminate|apply tbal_step; discriminate].
Qed.
Lemma tbal_fill o c hook (empty : bool) i file s : tbal (sl_name s) None (unpack_mounted o c hook empty i file s).
Proof.
  unfold unpack_mounted. apply tbal_mounted.
  - apply tbal_seq; [destruct empty; [apply bal_skip|apply bal_unpack]| |apply tbal_when, tbal_hook]. destruct empty; [apply tbal_skip|].
    unfold unpack. destruct (has_suffix ".caidx" file); [apply tbal_casync|]. destruct (has_suffix ".catar" file); [apply tbal_casync|apply tbal_step; discriminate].
  - apply keeps_seq; [destruct empty; [apply keeps_skip|apply keeps_unpack]|apply keeps_when, keeps_hook].
Qed.
Lemma tbal_guarded n mp o m dev : tbal n mp m ->
  tbal n mp (fun w => let (b, w1) := m w in if b then (true, w1) else (false, snd (step o (AForceRo dev true) w1))).
Proof.
  intros D w r w' M E. destruct (m w) as [b w1] eqn:E1. destruct (D _ _ _ M E1) as (ev & T & X). destruct b.
  - assert (w' = w1) by congruence. subst. eauto.
  - destruct (step o (AForceRo dev true) w1) as [b2 w2] eqn:E2. apply step_inv in E2. destruct E2 as [T2 _]. cbn [snd] in E.
    assert (w' = w2) by congruence. subst. exists (ev ++ [(AForceRo dev true, b2)]). split; [rewrite T2, T, <- app_assoc; reflexivity|].
    apply tidy_app; [exact X|]. apply tidy_free. repeat constructor. discriminate.
Qed.
Ltac tb := first [apply tbal_skip|apply tbal_refuse|apply tbal_hook_mounted|apply tbal_hook|apply tbal_write|apply tbal_ubi|apply tbal_fill|(apply tbal_step; discriminate)|(apply tbal_when; tb)|(apply tbal_seq; [bl|tb|tb])].
Lemma tbal_handler h o c hook i s : tbal (sl_name s) None (slot_handler h o c hook i s).
Proof.
  destruct h; cbn [slot_handler]; unfold img_to_fs, img_to_raw, img_to_ubivol, img_to_ubifs, img_to_nor, img_to_nand, archive_to_ext4, archive_to_ubifs,
    archive_to_vfat, archive_to_jffs2, hook_install, pre_hook, post_hook, pre_hook_mounted, post_hook_mounted, run; try solve [tb].
  - unfold img_to_boot_emmc. destruct (wx_realdev c) as [dev|]; [|tb]. destruct (wx_bp c) as [bp|]; [|tb].
    unfold copy_to_bootpart, pre_hook, post_hook. apply tbal_seq; [apply bal_guarded; bl|apply tbal_guarded; tb|].
    apply tbal_seq; [bl|tb|]. destruct (wx_bp_after c) as [[a|]|]; [destruct (Nat.eqb _ _)|..]; tb.
  - unfold img_to_boot_switch, pre_hook, post_hook. destruct (wx_part c) as [[start size]|]; [|tb]. destruct (_ <? _)%Z; tb.
  - unfold img_to_boot_switch, pre_hook, post_hook. destruct (wx_part c) as [[start size]|]; [|tb]. destruct (_ <? _)%Z; tb.
  - unfold img_to_boot_raw_fallback, pre_hook, post_hook. destruct (negb _); [tb|]. destruct (negb _); [tb|]. destruct (_ <? _)%Z; [tb|].
    apply tbal_seq; [bl|tb|]. destruct (wx_clear c) as [[|]|]; tb.
Qed.
Lemma c58_tidy_ok : forall h o c hook i s mp r w' t1 m t2,
  mp (sl_name s) = None -> slot_handler h o c hook i s (mkWst [] mp) = (r, w') -> ws_tr w' = t1 ++ (AMkdir m, true) :: t2 ->
  (exists b, In (ARmdir m, b) t2) \/ In (ARun ["umount"; m] None None, false) t2.
Proof.
  intros h o c hook i s mp r w' t1 m t2 M E X. apply tbal_handler in E; [|exact M]. destruct E as (ev & T & TD). cbn in T. rewrite T in X. eapply TD. exact X.
Qed.

(** ** an updated UBI volume is closed, and the failure to do so counts *)
Lemma c58_closed_ok : forall h o c hook i s mp w',
  h = H_img_to_ubivol \/ h = H_img_to_ubifs -> mp (sl_name s) = None -> slot_handler h o c hook i s (mkWst [] mp) = (true, w') ->
  In (AOpen (sl_device s), true) (ws_tr w') /\ In (AClose (sl_device s), true) (ws_tr w').
Proof.
  intros h o c hook i s mp w' HH M E. apply run_facts in E; [|exact M].
  assert (U : forall l, L_ubi c i (getopt (im_filename i)) s l -> In (AOpen (sl_device s), true) l /\ In (AClose (sl_device s), true) l).
  { intros l (a & b & -> & -> & x & y & -> & _ & z & u & -> & _ & ->). split; [now left|]. rewrite !in_app_iff. right. right. right. now left. }
  destruct HH as [-> | ->]; destruct E as (a & b & T & _ & x & y & -> & X & _); apply U in X; rewrite T, !in_app_iff; tauto.
Qed.

(** ** the custom install hook *)
Lemma c58_hook_install_ok : forall o c hook i s mp r w',
  mp (sl_name s) = None -> slot_handler H_hook_install o c hook i s (mkWst [] mp) = (r, w') ->
  match hook with
  | Some hk => exists env, ws_tr w' = [(AHook hk "slot-install" env, r)]
  | None => r = false /\ ws_tr w' = []
  end.
Proof.
  intros o c hook i s mp r w' M E. cbn [slot_handler] in E. unfold hook_install, run_hook in E. destruct hook as [hk|].
  - apply step_inv in E. destruct E as [T _]. eexists. exact T.
  - split; [congruence|]. replace w' with (mkWst [] mp) by congruence. reflexivity.
Qed.

(** ** the variables of boot slots *)
Lemma c59_region_ok : forall o c hook i s mp r w' hk cmd env b,
  mp (sl_name s) = None -> slot_handler H_boot_raw_fallback o c hook i s (mkWst [] mp) = (r, w') -> In (AHook hk cmd env, b) (ws_tr w') ->
  assoc "RAUC_BOOT_REGION_START" env = Some (print_num 10 (sx_start (wx_ext c (sl_name s)))) /\
  assoc "RAUC_BOOT_REGION_SIZE" env = Some (print_num 10 (sx_size (wx_ext c (sl_name s)))).
Proof.
  intros o c hook i s mp r w' hk cmd env b M E IN. apply in_split in IN. destruct IN as (t1 & t2 & T). destruct (hook_facts _ _ _ _ _ _ _ _ _ M E _ _ _ _ _ _ T) as [EN _].
  rewrite EN. unfold hook_env. cbn [hook_vars]. unfold raw_vars. cbn [fold_left fst snd]. split; [rewrite assoc_set_neq by discriminate|]; apply assoc_set_eq.
Qed.
Lemma c59_emmc_ok : forall o c hook i s mp r w' hk cmd env b,
  mp (sl_name s) = None -> slot_handler H_boot_emmc o c hook i s (mkWst [] mp) = (r, w') -> In (AHook hk cmd env, b) (ws_tr w') ->
  exists n, (n = "0" \/ n = "1") /\
    (* the partition that is being made active *)
    assoc "RAUC_BOOT_PARTITION_ACTIVATING" env = Some n /\
    (forall d p b', In (ASwitchEmmc d p, b') (ws_tr w') -> print_num 10 (N.of_nat p) = n /\ d = (getopt (wx_realdev c) ++ "boot" ++ n)%string) /\
    (forall f d b', In (AWrite f d, b') (ws_tr w') -> d = (getopt (wx_realdev c) ++ "boot" ++ n)%string) /\
    assoc "RAUC_BOOT_SIZE_LIMIT" env = Some (print_num 10 (sx_limit (wx_ext c (sl_name s)))) /\
    assoc "RAUC_SLOT_DEVICE" env = wx_realdev c /\
    assoc "RAUC_SLOT_STATE" env = Some (sx_state (wx_ext c (sl_name s))) /\ assoc "RAUC_SLOT_NAME" env = Some (sl_name s) /\ assoc "RAUC_SLOT_CLASS" env = Some (sl_class s).
Proof.
  intros o c hook i s mp r w' hk cmd env b M E IN. pose proof IN as IN0. apply in_split in IN. destruct IN as (t1 & t2 & T). destruct (hook_facts _ _ _ _ _ _ _ _ _ M E _ _ _ _ _ _ T) as [EN _].
  exists (if Nat.eqb (emmc_inactive c) 0 then "0" else "1"). split; [destruct (Nat.eqb _ 0); auto|].
  assert (RD : exists dev, wx_realdev c = Some dev).
  { cbn [slot_handler] in E. unfold img_to_boot_emmc in E. destruct (wx_realdev c) as [dev|]; [eauto|]. unfold refuse in E. replace w' with (mkWst [] mp) in IN0 by congruence. destruct IN0. }
  destruct RD as [dev RD].
  rewrite EN. unfold hook_env. cbn [hook_vars]. unfold emmc_vars, emmc_dev. cbn [fold_left fst snd]. rewrite RD. cbn [getopt].
  split; [rewrite !assoc_set_neq by discriminate; rewrite assoc_set_eq, inactive_cases; reflexivity|].
  assert (F : Forall (fun e : act * bool => match fst e with ASwitchEmmc d p => p = emmc_inactive c /\ d = sl_device (emmc_part c s) | AWrite f d => d = sl_device (emmc_part c s) | _ => True end) (ws_tr w')).
  { set (Pd := fun a => match a with ASwitchEmmc d p => p = emmc_inactive c /\ d = sl_device (emmc_part c s) | AWrite f d => d = sl_device (emmc_part c s) | _ => True end).
    assert (LFH : LF Pd (L_handler H_boot_emmc c hook i s)).
    { cbn [L_handler]. assert (HK : forall en cmd, LF Pd (L_hook (part_ctx c s) hook en cmd i (emmc_part c s) None (emmc_vars c s))) by (intros; apply LF_opt, LF_one; exact Logic.I).
      repeat first [apply HK|apply LF_eps|apply LF_cat|(apply LF_one; cbn; auto)]. }
    apply run_facts in E; [|exact M]. destruct r; [now apply LFH|]. apply (cut_forall Pd _ _ LFH); [|exact E]. intros a CL. destruct a; try exact Logic.I; discriminate. }
  rewrite Forall_forall in F. pose proof (inactive_cases c) as IC.
  assert (DD : sl_device (emmc_part c s) = (dev ++ "boot" ++ (if Nat.eqb (emmc_inactive c) 0 then "0" else "1"))%string).
  { unfold emmc_part, emmc_dev. cbn [sl_device]. rewrite RD, IC. reflexivity. }
  split; [intros d p b' X; apply F in X; cbn [fst] in X; destruct X as [-> ->]; split; [exact IC|exact DD]|].
  split; [intros f d b' X; apply F in X; cbn [fst] in X; congruence|].
  split; [rewrite !assoc_set_neq by discriminate; rewrite assoc_set_eq; reflexivity|].
  split; [rewrite assoc_set_eq; reflexivity|].
  split; [rewrite !assoc_set_neq by discriminate; cbn [assoc app String.eqb Ascii.eqb Bool.eqb]|split; rewrite !assoc_set_neq by discriminate; reflexivity].
  unfold part_ctx. cbn [wx_ext]. rewrite String.eqb_refl. reflexivity.
Qed.

(** ** vfat labels, character by character *)
Lemma smap_get f s n : get n (smap f s) = option_map f (get n s).
Proof. revert n. induction s as [|a s IH]; intros [|n]; cbn; auto. Qed.
Lemma stake_get k : forall s n, (n < k)%nat -> get n (stake k s) = get n s.
Proof. induction k as [|k IH]; intros s n H; [lia|]. destruct s as [|a s]; [reflexivity|]. destruct n; [reflexivity|]. cbn. apply IH. lia. Qed.
Lemma c59_vfat_label_chars_ok : forall name n a, (n < 11)%nat -> get n name = Some a ->
  get n (vfat_label name) = Some (if in_string (upper a) "*?.,;:/\|+=<>[]""" then "_"%char else upper a).
Proof.
  intros name n a L G. unfold vfat_label. rewrite smap_get. destruct (Nat.ltb 11 (String.length name)); [rewrite stake_get by exact L|]; rewrite G; reflexivity.
Qed.
