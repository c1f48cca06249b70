From Verif Require Import Base Slot Image Handlers KeyFile KeyFileLemmas SlotWrite SlotWriteSpec SlotWriteProofs SlotWriteTop SlotWriteThms SlotWriteBal SlotWriteConf.

(** ** a predicate on every action and the mount table it meets *)
Definition tpred := list (string * string) -> act -> Prop.
Definition confq (Q : tpred) (tab : list (string * string)) (l : hist) : Prop :=
  forall t1 a b t2, l = t1 ++ (a, b) :: t2 -> Q (mounts_from tab t1) a.
Definition LQ (Q : tpred) (tab : list (string * string)) (P : lang) (tab' : list (string * string)) : Prop :=
  forall l, P l -> confq Q tab l /\ mounts_from tab l = tab'.
Lemma confq_nil (Q : tpred) tab : confq Q tab [].
Proof. intros t1 a b t2 E. destruct t1; discriminate. Qed.
Lemma confq_app (Q : tpred) tab a b : confq Q tab a -> confq Q (mounts_from tab a) b -> confq Q tab (a ++ b).
Proof.
  intros A B t1 x r t2 E. apply split_in in E. destruct E as [(u & -> & _)|(u & -> & ->)]; [eapply A; eauto|].
  rewrite mounts_from_app. eapply B; eauto.
Qed.
Lemma confq_cons (Q : tpred) tab a b l : Q tab a -> confq Q (mount_event tab (a, b)) l -> confq Q tab ((a, b) :: l).
Proof.
  intros A B. apply (confq_app Q tab [(a, b)] l); [|exact B]. intros t1 x r t2 E. destruct t1 as [|y t1]; [|destruct t1; discriminate].
  cbn [app] in E. assert (a = x) by congruence. subst x. exact A.
Qed.
Lemma LQ_one (Q : tpred) tab a : inert a -> Q tab a -> LQ Q tab (one a) tab.
Proof. intros IN A l ->. split; [|apply IN]. apply confq_cons; [exact A|apply confq_nil]. Qed.
Lemma LQ_cat (Q : tpred) tab (P : lang) tab1 (R : lang) tab2 : LQ Q tab P tab1 -> LQ Q tab1 R tab2 -> LQ Q tab (cat P R) tab2.
Proof.
  intros A B l (a & b & -> & HA & HB). destruct (A _ HA) as [A1 A2], (B _ HB) as [B1 B2]. rewrite mounts_from_app, A2, B2. split; [|reflexivity].
  apply confq_app; [exact A1|rewrite A2; exact B1].
Qed.
Lemma LQ_eps (Q : tpred) tab : LQ Q tab eps tab.
Proof. intros l ->. split; [apply confq_nil|reflexivity]. Qed.
Lemma LQ_opt (Q : tpred) tab b (P : lang) : LQ Q tab P tab -> LQ Q tab (opt b P) tab.
Proof. destruct b; [auto|intros _; apply LQ_eps]. Qed.

(** only hooks matter *)
Definition hooky (Q : tpred) : Prop := forall tab a, hookish a = false -> Q tab a.
Lemma LQ_hookless (Q : tpred) tab (P : lang) tab' : hooky Q -> (forall l, P l -> hookless l /\ mounts_from tab l = tab') -> LQ Q tab P tab'.
Proof.
  intros H A l HL. destruct (A l HL) as [HK M]. split; [|exact M]. intros t1 a b t2 E. apply H. apply (forall_split _ _ _ _ _ HK E).
Qed.
Lemma LQ_mounted (Q : tpred) tab c s (P : lang) : hooky Q ->
  LQ Q ((msrc s, mount_point c s) :: tab) P ((msrc s, mount_point c s) :: tab) -> LQ Q tab (L_mounted c s P) tab.
Proof.
  intros H A. unfold L_mounted. eapply LQ_cat; [|eapply LQ_cat; [exact A|]].
  - apply LQ_hookless; [exact H|]. intros l HL. split; [eapply quiet_hookless, quiet_mount; eauto|]. now apply mounted_mount.
  - apply LQ_hookless; [exact H|]. intros l HL. split; [eapply quiet_hookless, quiet_umount; eauto|].
    destruct HL as [b ->]. unfold mounts_from. cbn [fold_left]. now rewrite mount_event_umount.
Qed.
Lemma LQ_LP (Q : tpred) tab (P : lang) ok tab' : hooky Q -> LP ok tab P tab' -> (forall l, P l -> hookless l) -> LQ Q tab P tab'.
Proof. intros H A B. apply LQ_hookless; [exact H|]. intros l HL. split; [auto|]. now apply (A l HL). Qed.
Lemma LQ_act (Q : tpred) tab a : hooky Q -> inert a -> hookish a = false -> LQ Q tab (one a) tab.
Proof. intros H IN A. apply LQ_one; [exact IN|]. now apply H. Qed.

(** ** which hooks see the slot mounted *)
Definition mounted_hook (h : handler) (cmd : string) : bool :=
  if String.eqb cmd pre_cmd then match h with H_img_to_fs | H_img_to_ubifs | H_archive_to_ubifs | H_archive_to_jffs2 => true | _ => false end
  else if String.eqb cmd post_cmd then
    match h with H_img_to_fs | H_img_to_ubifs | H_archive_to_ubifs | H_archive_to_jffs2 | H_archive_to_ext4 | H_archive_to_vfat => true | _ => false end
  else false.
Definition hook_vars (h : handler) (c : wctx) (s : slot) : list (string * string) :=
  match h with H_boot_mbr_switch | H_boot_gpt_switch => switch_vars c s | H_boot_raw_fallback => raw_vars c s | H_boot_emmc => emmc_vars c s | _ => [] end.
Definition Qenv (h : handler) (c : wctx) (i : image) (s : slot) : tpred := fun tab a =>
  match a with
  | AHook _ cmd env =>
      env = hook_env (match h with H_boot_emmc => part_ctx c s | _ => c end) i (match h with H_boot_emmc => emmc_part c s | _ => s end)
              (if mounted_hook h cmd then Some (mount_point c s) else None) (hook_vars h c s) /\
      tab = (if mounted_hook h cmd then [(msrc s, mount_point c s)] else [])
  | _ => True
  end.
Lemma hooky_env h c i s : hooky (Qenv h c i s).
Proof. intros tab a H. destruct a; try exact I. discriminate. Qed.

Lemma LQ_unpack h c i file s tab : LQ (Qenv h c i s) ((msrc s, mount_point c s) :: tab) (L_unpack c i file s) ((msrc s, mount_point c s) :: tab).
Proof.
  eapply LQ_LP; [apply hooky_env|apply LP_unpack|]. intros l HL. apply content_unpack in HL. apply HL.
Qed.
Lemma LQ_write h c i file s : LQ (Qenv h c i s) [] (L_write c i file s) [].
Proof. eapply LQ_LP; [apply hooky_env|apply LP_write|]. intros l HL. apply content_write in HL. apply HL. Qed.
Lemma LQ_ubi h c i file s : LQ (Qenv h c i s) [] (L_ubi c i file s) [].
Proof. eapply LQ_LP; [apply hooky_env|apply LP_ubi|]. intros l HL. apply content_ubi in HL. apply HL. Qed.
Lemma LQ_hook (Q : tpred) tab c hook en cmd i s mp vars : Q tab (hook_act c hook cmd i s mp vars) -> LQ Q tab (L_hook c hook en cmd i s mp vars) tab.
Proof. intros A. apply LQ_opt, LQ_one; [inr|exact A]. Qed.
Lemma LQ_hook_mounted h c hook en cmd i s : h <> H_boot_emmc -> hook_vars h c s = [] -> mounted_hook h cmd = true ->
  LQ (Qenv h c i s) [] (L_hook_mounted c hook en cmd i s) [].
Proof.
  intros NE HV MH. apply LQ_opt, LQ_mounted; [apply hooky_env|]. apply LQ_one; [inr|]. unfold Qenv, hook_act. rewrite MH, HV. split; [|reflexivity].
  destruct h; try reflexivity. congruence.
Qed.
Lemma LQ_fill h c hook empty i file s : h <> H_boot_emmc -> hook_vars h c s = [] -> mounted_hook h post_cmd = true ->
  LQ (Qenv h c i s) [] (L_fill c hook empty i file s) [].
Proof.
  intros NE HV MH. unfold L_fill. apply LQ_mounted; [apply hooky_env|]. eapply LQ_cat; [destruct empty; [apply LQ_eps|apply LQ_unpack]|].
  apply LQ_hook. unfold Qenv, hook_act. rewrite MH, HV. split; [|reflexivity]. destruct h; try reflexivity. congruence.
Qed.
Ltac lq := first [(apply LQ_hook; split; reflexivity)|(apply LQ_hook_mounted; [discriminate|reflexivity|reflexivity])|apply LQ_write|apply LQ_ubi
  |(apply LQ_fill; [discriminate|reflexivity|reflexivity])|apply LQ_eps|(apply LQ_act; [apply hooky_env|inr|reflexivity])].
Ltac lqc := repeat (eapply LQ_cat; [lq|]); lq.
Lemma LQ_area h c i s file start half : LQ (Qenv h c i s) [] (L_area s file start half) [].
Proof. unfold L_area. lqc. Qed.
Lemma LQ_handler h c hook i s : LQ (Qenv h c i s) [] (L_handler h c hook i s) [].
Proof.
  destruct h; cbn [L_handler]; try solve [lqc].
  - eapply LQ_cat; [lq|]. eapply LQ_cat; [lq|]. eapply LQ_cat; [apply LQ_opt|]; lq.
  - eapply LQ_cat; lqc.
  - destruct (wx_clear c) as [[|]|]; (eapply LQ_cat; [lq|]); (eapply LQ_cat; [apply LQ_area|]); (eapply LQ_cat; [apply LQ_area|lq]).
  - apply LQ_one; [inr|]. split; reflexivity.
Qed.

Lemma hook_facts h o c hook i s mp r w' : mp (sl_name s) = None -> slot_handler h o c hook i s (mkWst [] mp) = (r, w') ->
  forall t1 hk cmd env b t2, ws_tr w' = t1 ++ (AHook hk cmd env, b) :: t2 -> Qenv h c i s (mounts t1) (AHook hk cmd env).
Proof.
  intros M E. apply run_facts in E; [|exact M].
  assert (A : forall l, L_handler h c hook i s l -> along (fun t a => Qenv h c i s (mounts t) a) l).
  { intros l HL t1 a b t2 X. destruct (LQ_handler h c hook i s l HL) as [CF _]. apply (CF _ _ _ _ X). }
  assert (B : along (fun t a => Qenv h c i s (mounts t) a) (ws_tr w')).
  { destruct r; [now apply A|]. eapply cut_along; [exact A| |exact E]. intros t a CL. apply hooky_env. apply cleanup_not in CL. tauto. }
  intros t1 hk cmd env b t2 X. exact (B _ _ _ _ X).
Qed.
