From Verif Require Import Base Slot Image Handlers SlotWrite SlotWriteSpec SlotWriteProofs SlotWriteTop.

(** ** every mount is undone *)
Definition stuck (ev : hist) : Prop := exists m, In (ARun ["umount"; m] None None, false) ev.
Definition even (ev : hist) : Prop := forall tab, mounts_from tab ev = tab.
Definition bal (n : string) (mp : option string) (m : wprog) : Prop :=
  forall w r w', ws_mp w n = mp -> m w = (r, w') ->
    (r = true -> ws_mp w' n = mp) /\ exists ev, ws_tr w' = ws_tr w ++ ev /\ (even ev \/ r = false /\ stuck ev).
Definition inert (a : act) : Prop := forall tab b, mount_event tab (a, b) = tab.

Lemma mounts_from_app tab a b : mounts_from tab (a ++ b) = mounts_from (mounts_from tab a) b.
Proof. apply fold_left_app. Qed.
Lemma even_nil : even []. Proof. intros tab. reflexivity. Qed.
Lemma even_app a b : even a -> even b -> even (a ++ b).
Proof. intros A B tab. now rewrite mounts_from_app, A, B. Qed.
Lemma even_one a b : inert a -> even [(a, b)].
Proof. intros H tab. apply H. Qed.
Lemma stuck_l a b : stuck a -> stuck (a ++ b).
Proof. intros [m H]. exists m. apply in_or_app. now left. Qed.
Lemma stuck_r a b : stuck b -> stuck (a ++ b).
Proof. intros [m H]. exists m. apply in_or_app. now right. Qed.

Lemma bal_step n mp o a : inert a -> bal n mp (step o a).
Proof.
  intros H w r w' M E. apply step_inv in E. destruct E as [T M1]. split; [congruence|]. eexists. split; [exact T|]. left. now apply even_one.
Qed.
Lemma bal_skip n mp : bal n mp skip.
Proof. intros w r w' M E. unfold skip in E. assert (w' = w) by congruence. subst. split; [auto|]. exists []. rewrite app_nil_r. split; [reflexivity|left; apply even_nil]. Qed.
Lemma bal_refuse n mp : bal n mp refuse.
Proof. intros w r w' M E. unfold refuse in E. assert (w' = w) by congruence. subst. split; [auto|]. exists []. rewrite app_nil_r. split; [reflexivity|left; apply even_nil]. Qed.
Lemma bal_seq n mp m k : bal n mp m -> bal n mp k -> bal n mp (m &&> k).
Proof.
  intros A B w r w' M E. unfold andthen in E. destruct (m w) as [b w1] eqn:E1. destruct (A _ _ _ M E1) as (M1 & ev1 & T1 & X1). destruct b.
  - destruct (B _ _ _ (M1 eq_refl) E) as (M2 & ev2 & T2 & X2). split; [exact M2|]. exists (ev1 ++ ev2). split; [rewrite T2, T1, <- app_assoc; reflexivity|].
    destruct X1 as [X1|[X1 _]]; [|discriminate]. destruct X2 as [X2|[-> X2]]; [left; now apply even_app|right; split; [reflexivity|now apply stuck_r]].
  - assert (r = false /\ w' = w1) as [-> ->] by (split; congruence). split; [discriminate|]. eauto.
Qed.
Lemma bal_when n mp b m : bal n mp m -> bal n mp (when b m).
Proof. destruct b; [auto|intros _; apply bal_skip]. Qed.

Lemma mount_event_mount c s tab : mount_event tab (mount_act c s, true) =
  (if String.eqb (sl_type s) "jffs2" then basename (sl_device s) else sl_device s, mount_point c s) :: tab.
Proof. unfold mount_act, mount_argv. destruct (sx_mount _); reflexivity. Qed.
Lemma mount_event_mount_f c s tab : mount_event tab (mount_act c s, false) = tab.
Proof. unfold mount_act, mount_argv. destruct (sx_mount _); reflexivity. Qed.
Lemma mount_event_umount c s x tab : mount_event ((x, mount_point c s) :: tab) (umount_act c s, true) = tab.
Proof. cbn. now rewrite String.eqb_refl. Qed.
Lemma mounted_mount c s ev tab : L_mount c s ev -> mounts_from tab ev = (if String.eqb (sl_type s) "jffs2" then basename (sl_device s) else sl_device s, mount_point c s) :: tab.
Proof. intros ->. unfold mounts_from. cbn [fold_left]. apply mount_event_mount. Qed.
Lemma even_mount_fail c s ev : ev = [(AExists (sl_device s), false)] \/ ev = [(AExists (sl_device s), true); (AMkdir (mount_point c s), false)] \/
  (exists b, ev = [(AExists (sl_device s), true); (AMkdir (mount_point c s), true); (mount_act c s, false); (ARmdir (mount_point c s), b)]) -> even ev.
Proof.
  intros [->|[->|[b ->]]] tab; reflexivity.
Qed.
Lemma even_mounted c s ev1 ev2 ev3 : L_mount c s ev1 -> even ev2 -> L_umount c s ev3 -> even (ev1 ++ ev2 ++ ev3).
Proof.
  intros A B [b ->] tab. rewrite !mounts_from_app, (mounted_mount c s _ _ A), B. unfold mounts_from. cbn [fold_left].
  rewrite mount_event_umount. reflexivity.
Qed.

Lemma bal_mounted o c s m :
  bal (sl_name s) (Some (mount_point c s)) m ->
  (forall w r w', m w = (r, w') -> ws_mp w (sl_name s) = Some (mount_point c s) -> ws_mp w' (sl_name s) = Some (mount_point c s)) ->
  bal (sl_name s) None (mount_slot o c s &&> finally m (umount_slot o s)).
Proof.
  intros D K w r w' M E. unfold andthen in E. destruct (mount_slot o c s w) as [b1 w1] eqn:E1.
  apply mount_slot_inv in E1; [|exact M]. destruct E1 as (ev1 & T1 & [(-> & L1 & M1)|(-> & M1 & F1)]).
  2:{ assert (r = false /\ w' = w1) as [-> ->] by (split; congruence). split; [discriminate|]. exists ev1. split; [exact T1|]. left. eapply even_mount_fail; eauto. }
  assert (M1s : ws_mp w1 (sl_name s) = Some (mount_point c s)) by (rewrite M1, String.eqb_refl; reflexivity).
  unfold finally in E. destruct (m w1) as [b2 w2] eqn:E2. pose proof (K _ _ _ E2 M1s) as M2s. apply D in E2; [|exact M1s]. destruct E2 as (_ & ev2 & T2 & X2).
  destruct (umount_slot o s w2) as [b3 w3] eqn:E3. apply (umount_slot_inv o c) in E3; [|exact M2s]. destruct E3 as (ev3 & T3 & U).
  assert (r = b2 && b3 /\ w' = w3) as [-> ->] by (split; congruence).
  assert (T : ws_tr w3 = ws_tr w ++ ev1 ++ ev2 ++ ev3) by (rewrite T3, T2, T1, <- !app_assoc; reflexivity).
  destruct U as [(-> & L3 & M3)|(-> & M3 & ->)].
  - split; [intros _; rewrite M3, String.eqb_refl; reflexivity|]. exists (ev1 ++ ev2 ++ ev3). split; [exact T|]. destruct X2 as [X2|[-> X2]].
    + left. eapply even_mounted; eauto.
    + right. split; [reflexivity|]. apply stuck_r, stuck_l, X2.
  - split; [destruct b2; discriminate|]. eexists. split; [exact T|]. right. split; [destruct b2; reflexivity|]. apply stuck_r, stuck_r. exists (mount_point c s). now left.
Qed.

Lemma bal_casync_extract n mp o c file seed dest out : bal n mp (casync_extract o c file seed dest out).
Proof.
  unfold casync_extract. destruct (wx_casync_args c) as [args|]; [|apply bal_refuse]. apply bal_step. intros tab b. unfold casync_argv. destruct (wx_desync c); reflexivity.
Qed.
Lemma bal_casync n mp o c i file dest out : (has_suffix ".caidx" file = true -> mp <> None) -> bal n mp (casync_image o c i file dest out).
Proof.
  intros CX w r w' M E.
  assert (KP : mp <> None -> ws_mp w' n = mp) by (intros X; rewrite <- M; eapply keeps_casync; eauto; congruence).
  unfold casync_image in E. destruct (if wx_desync c then None else _) as [sd|]; [|eapply bal_casync_extract; eauto].
  destruct (has_suffix ".caidx" file).
  2:{ destruct (step o _ w) as [b w1] eqn:E1. apply step_inv in E1. destruct E1 as [T1 M1].
      destruct (bal_casync_extract n mp _ _ _ _ _ _ _ _ _ (eq_trans (f_equal (fun f => f n) M1) M) E) as (MM & ev & T & X). split; [exact MM|].
      exists ([(ASeedStat (sl_device sd), b)] ++ ev). split; [rewrite T, T1, <- app_assoc; reflexivity|].
      destruct X as [X|[-> X]]; [left; apply even_app; [apply even_one; intros tab bb; reflexivity|exact X]|right; split; [reflexivity|now apply stuck_r]]. }
  split; [intros _; apply KP, CX; reflexivity|].
  destruct (ws_mp w (sl_name sd)) eqn:MS; [eapply bal_casync_extract in E; [apply E|exact M]|].
  destruct (mount_slot o c sd w) as [b w1] eqn:E1. apply mount_slot_inv in E1; [|exact MS]. destruct E1 as (ev1 & T1 & [(-> & L1 & M1)|(-> & M1 & F1)]).
  - assert (M1s : ws_mp w1 (sl_name sd) = Some (mount_point c sd)) by (rewrite M1, String.eqb_refl; reflexivity).
    unfold finally in E. destruct (casync_extract _ _ _ _ _ _ w1) as [b2 w2] eqn:E2.
    assert (M2s : ws_mp w2 (sl_name sd) = Some (mount_point c sd)) by (rewrite (keeps_casync_extract (sl_name sd) _ _ _ _ _ _ _ _ _ E2); [exact M1s|congruence]).
    eapply bal_casync_extract in E2; [|exact M1s]. destruct E2 as (_ & ev2 & T2 & X2).
    destruct (umount_slot o sd w2) as [b3 w3] eqn:E3. apply (umount_slot_inv o c) in E3; [|exact M2s]. destruct E3 as (ev3 & T3 & U).
    assert (r = b2 && b3 /\ w' = w3) as [-> ->] by (split; congruence).
    assert (T : ws_tr w3 = ws_tr w ++ ev1 ++ ev2 ++ ev3) by (rewrite T3, T2, T1, <- !app_assoc; reflexivity).
    eexists. split; [exact T|]. destruct U as [(-> & L3 & M3)|(-> & M3 & ->)].
    + destruct X2 as [X2|[-> X2]]; [left; eapply even_mounted; eauto|right; split; [reflexivity|apply stuck_r, stuck_l, X2]].
    + right. split; [destruct b2; reflexivity|]. apply stuck_r, stuck_r. exists (mount_point c sd). now left.
  - eapply bal_casync_extract in E; [|rewrite M1; exact M]. destruct E as (_ & ev & T & X). exists (ev1 ++ ev). split; [rewrite T, T1, <- app_assoc; reflexivity|].
    destruct X as [X|[-> X]]; [left; apply even_app; [eapply even_mount_fail; eauto|exact X]|right; split; [reflexivity|now apply stuck_r]].
Qed.

Ltac inr := intros ? ?; reflexivity.
Lemma bal_hook n mp o c hook cmd i s vars : bal n mp (run_hook o c hook cmd i s vars).
Proof.
  destruct hook as [h|]; [|exact (bal_refuse n mp)]. intros w r w' M E. unfold run_hook in E. eapply bal_step in E; [exact E|inr|exact M].
Qed.
Lemma bal_hook_opt n mp o c hook en cmd i s vars : bal n mp (when (has_hook hook en) (run_hook o c hook cmd i s vars)).
Proof. apply bal_when, bal_hook. Qed.
Lemma bal_hook_mounted o c hook en cmd i s : bal (sl_name s) None (when (has_hook hook en) (mount_and_run_hook o c hook cmd i s)).
Proof.
  apply bal_when. unfold mount_and_run_hook. apply bal_mounted; [apply bal_hook|].
  intros w r w' E M. rewrite <- M. eapply keeps_hook; eauto. congruence.
Qed.
Lemma bal_unpack n o c i file dest m : bal n (Some m) (unpack o c i file dest).
Proof.
  unfold unpack. destruct (has_suffix ".caidx" file) eqn:E1; [apply bal_casync; discriminate|].
  destruct (has_suffix ".catar" file); [apply bal_casync; discriminate|]. apply bal_step. inr.
Qed.
Lemma bal_write n mp o c i file s : bal n mp (write_dev o c i file s).
Proof.
  unfold write_dev. destruct (has_suffix ".caibx" file) eqn:E; [|apply bal_step; inr]. apply bal_casync. intros X. destruct (caibx_not_caidx _ E X).
Qed.
Lemma bal_ubi n mp o c i file s : bal n mp (write_ubi o c i file s).
Proof.
  unfold write_ubi. apply bal_seq; [apply bal_step; inr|]. apply bal_seq; [apply bal_step; inr|]. apply bal_seq; [|apply bal_step; inr].
  destruct (has_suffix ".caibx" file) eqn:E; [|apply bal_step; inr]. apply bal_casync. intros X. destruct (caibx_not_caidx _ E X).
Qed.
Lemma bal_fill o c hook empty i file s : bal (sl_name s) None (unpack_mounted o c hook empty i file s).
Proof.
  unfold unpack_mounted. apply bal_mounted.
  - apply bal_seq; [destruct empty; [apply bal_skip|apply bal_unpack]|apply bal_hook_opt].
  - intros w r w' E M. rewrite <- M. eapply keeps_seq; [| |exact E|congruence].
    + destruct empty; [apply keeps_skip|apply keeps_unpack].
    + apply keeps_when, keeps_hook.
Qed.
Lemma bal_guarded n mp o m dev : bal n mp m ->
  bal n mp (fun w => let (b, w1) := m w in if b then (true, w1) else (false, snd (step o (AForceRo dev true) w1))).
Proof.
  intros D w r w' M E. destruct (m w) as [b w1] eqn:E1. destruct (D _ _ _ M E1) as (MM & ev & T & X). destruct b.
  - assert (r = true /\ w' = w1) as [-> ->] by (split; congruence). eauto.
  - destruct (step o (AForceRo dev true) w1) as [b2 w2] eqn:E2. apply step_inv in E2. destruct E2 as [T2 _]. cbn [snd] in E.
    assert (r = false /\ w' = w2) as [-> ->] by (split; congruence). split; [discriminate|]. exists (ev ++ [(AForceRo dev true, b2)]). split; [rewrite T2, T, <- app_assoc; reflexivity|].
    destruct X as [X|[_ X]]; [left; apply even_app; [exact X|apply even_one; inr]|right; split; [reflexivity|now apply stuck_l]].
Qed.

Lemma bal_handler h o c hook i s : bal (sl_name s) None (slot_handler h o c hook i s).
Proof.
  destruct h; cbn [slot_handler].
  - unfold img_to_fs. repeat apply bal_seq; [apply bal_hook_mounted|apply bal_write|apply bal_when, bal_step; inr|apply bal_hook_mounted].
  - unfold img_to_raw. repeat apply bal_seq; [apply bal_hook_opt|apply bal_write|apply bal_hook_opt].
  - unfold img_to_ubivol. apply bal_seq; [apply bal_hook_opt|apply bal_seq; [apply bal_ubi|apply bal_hook_opt]].
  - unfold img_to_ubifs. apply bal_seq; [apply bal_hook_mounted|apply bal_seq; [apply bal_ubi|apply bal_hook_mounted]].
  - unfold img_to_nor. repeat apply bal_seq; [apply bal_hook_opt|apply bal_step; inr|apply bal_hook_opt].
  - unfold img_to_nand. repeat apply bal_seq; [apply bal_hook_opt|apply bal_step; inr|apply bal_step; inr|apply bal_hook_opt].
  - unfold archive_to_ext4. apply bal_seq; [apply bal_hook_opt|apply bal_seq; [apply bal_step; inr|apply bal_fill]].
  - unfold archive_to_ubifs. apply bal_seq; [apply bal_hook_mounted|apply bal_seq; [apply bal_step; inr|apply bal_fill]].
  - unfold archive_to_vfat. apply bal_seq; [apply bal_hook_opt|apply bal_seq; [apply bal_step; inr|apply bal_fill]].
  - unfold archive_to_jffs2. apply bal_seq; [apply bal_hook_mounted|apply bal_seq; [apply bal_step; inr|apply bal_fill]].
  - unfold img_to_boot_emmc. destruct (wx_realdev c) as [dev|]; [|apply bal_refuse]. destruct (wx_bp c) as [bp|]; [|apply bal_refuse].
    apply bal_seq; [|apply bal_seq; [apply bal_step; inr|]].
    + unfold copy_to_bootpart. apply bal_guarded. repeat apply bal_seq; first [apply bal_step; inr|apply bal_hook_opt].
    + destruct (wx_bp_after c) as [[a|]|]; [destruct (Nat.eqb _ _)|..]; first [apply bal_skip|apply bal_refuse].
  - unfold img_to_boot_switch. destruct (wx_part c) as [[start size]|]; [|apply bal_refuse]. destruct (_ <? _)%Z; [apply bal_refuse|].
    repeat apply bal_seq; first [apply bal_step; inr|apply bal_hook_opt].
  - unfold img_to_boot_switch. destruct (wx_part c) as [[start size]|]; [|apply bal_refuse]. destruct (_ <? _)%Z; [apply bal_refuse|].
    repeat apply bal_seq; first [apply bal_step; inr|apply bal_hook_opt].
  - unfold img_to_boot_raw_fallback. destruct (negb _); [apply bal_refuse|]. destruct (negb _); [apply bal_refuse|]. destruct (_ <? _)%Z; [apply bal_refuse|].
    apply bal_seq; [apply bal_hook_opt|]. destruct (wx_clear c) as [[|]|]; [| |apply bal_refuse]; repeat apply bal_seq; first [apply bal_step; inr|apply bal_hook_opt].
  - apply bal_hook.
Qed.

Lemma c58_unmounted_ok : forall h o c hook i s mp r w',
  mp (sl_name s) = None -> slot_handler h o c hook i s (mkWst [] mp) = (r, w') ->
  mounts (ws_tr w') = [] \/
  r = false /\ exists m, In (ARun ["umount"; m] None None, false) (ws_tr w').
Proof.
  intros h o c hook i s mp r w' M E. apply bal_handler in E; [|exact M]. destruct E as (_ & ev & T & X). cbn in T. rewrite T.
  destruct X as [X|X]; [left; apply (X [])|right; exact X].
Qed.

(** a slot counts as unmounted again after success *)
Lemma c58_forgotten_ok : forall h o c hook i s mp w',
  mp (sl_name s) = None -> slot_handler h o c hook i s (mkWst [] mp) = (true, w') -> ws_mp w' (sl_name s) = None.
Proof. intros h o c hook i s mp w' M E. apply bal_handler in E; [|exact M]. now apply E. Qed.
