From Verif Require Import Base BaseLemmas Slot Image Handlers KeyFile KeyFileLemmas SlotWrite SlotWriteSpec SlotWriteProofs SlotWriteTop SlotWriteThms SlotWriteBal SlotWriteConf SlotWriteEnv.

(** ** the changes made by a successful run *)
Definition mods (l : hist) : list act := map fst (filter (fun e => modifying (fst e)) l).
Lemma mods_app a b : mods (a ++ b) = mods a ++ mods b.
Proof. unfold mods. rewrite filter_app, map_app. reflexivity. Qed.
Definition LM (P : lang) (acts : list act) : Prop := forall l, P l -> mods l = acts.
Lemma LM_cat (P : lang) x (Q : lang) y : LM P x -> LM Q y -> LM (cat P Q) (x ++ y).
Proof. intros A B l (a & b & -> & HA & HB). now rewrite mods_app, (A _ HA), (B _ HB). Qed.
Lemma LM_eps : LM eps []. Proof. intros l ->. reflexivity. Qed.
Lemma LM_one a : modifying a = true -> LM (one a) [a].
Proof. intros M l ->. unfold mods. cbn [filter fst]. now rewrite M. Qed.
Lemma LM_none a : modifying a = false -> LM (one a) [].
Proof. intros M l ->. unfold mods. cbn [filter fst]. now rewrite M. Qed.
Lemma LM_quiet (P : lang) : (forall l, P l -> quiet l) -> LM P [].
Proof.
  intros H l HL. apply H in HL. unfold mods. induction HL as [|[a b] l [M _] _ IH]; [reflexivity|]. cbn [filter fst] in *. now rewrite M.
Qed.
Lemma LM_opt b (P : lang) x : LM P x -> LM (opt b P) (if b then x else []).
Proof. destruct b; [auto|intros _; apply LM_eps]. Qed.
Lemma LM_opt0 b (P : lang) : LM P [] -> LM (opt b P) [].
Proof. destruct b; [auto|intros _; apply LM_eps]. Qed.
Lemma LM_hook c hook en cmd i s mp vars : LM (L_hook c hook en cmd i s mp vars) [].
Proof. apply LM_opt0, LM_none. reflexivity. Qed.
Lemma LM_mounted c s (P : lang) x : LM P x -> LM (L_mounted c s P) x.
Proof.
  intros A. rewrite <- (app_nil_l x), <- (app_nil_r x). unfold L_mounted. apply LM_cat; [apply LM_quiet, quiet_mount|]. apply LM_cat; [exact A|apply LM_quiet, quiet_umount].
Qed.
Lemma LM_hook_mounted c hook en cmd i s : LM (L_hook_mounted c hook en cmd i s) [].
Proof. apply LM_opt0, LM_mounted, LM_none. reflexivity. Qed.

Definition plain_image (file : string) : Prop :=
  has_suffix ".caibx" file = false /\ has_suffix ".caidx" file = false /\ has_suffix ".catar" file = false.
Lemma LM_unpack c i file s : plain_image file -> LM (L_unpack c i file s) [ARun (tar_argv file (mount_point c s)) (Some file) None].
Proof. intros (_ & A & B). unfold L_unpack. rewrite A, B. cbn [orb]. apply LM_one. reflexivity. Qed.
Lemma LM_write c i file s : plain_image file -> LM (L_write c i file s) [AWrite file (sl_device s)].
Proof. intros (A & _ & _). unfold L_write. rewrite A. apply LM_one. reflexivity. Qed.
Lemma LM_ubi c i file s : plain_image file -> LM (L_ubi c i file s) [AVolUp (sl_device s) (im_size i); ACopy file (sl_device s)].
Proof.
  intros (A & _ & _). unfold L_ubi. rewrite A. change [AVolUp (sl_device s) (im_size i); ACopy file (sl_device s)] with ([] ++ [AVolUp (sl_device s) (im_size i)] ++ [ACopy file (sl_device s)] ++ []).
  apply LM_cat; [apply LM_none; reflexivity|]. apply LM_cat; [apply LM_one; reflexivity|]. apply LM_cat; [apply LM_one|apply LM_none]; reflexivity.
Qed.
Lemma LM_fill c hook (empty : bool) i file s : plain_image file ->
  LM (L_fill c hook empty i file s) (if empty then [] else [ARun (tar_argv file (mount_point c s)) (Some file) None]).
Proof.
  intros A. unfold L_fill. apply LM_mounted. rewrite <- (app_nil_r (if empty then _ else _)). apply LM_cat; [|apply LM_hook].
  destruct empty; [apply LM_eps|now apply LM_unpack].
Qed.
Lemma LM_area s file start half : LM (L_area s file start half) [AClear (sl_device s) start (Some half); AWriteAt file (sl_device s) start half 512].
Proof. unfold L_area. apply (LM_cat _ [_] _ [_]); apply LM_one; reflexivity. Qed.
Lemma LM_eq (P : lang) x y : LM P x -> x = y -> LM P y.
Proof. intros A <-. exact A. Qed.
Ltac lm := first [apply LM_hook|apply LM_hook_mounted|apply LM_write; assumption|apply LM_ubi; assumption|apply LM_fill; assumption|apply LM_eps|apply LM_area
  |apply LM_one; reflexivity|apply LM_none; reflexivity].
Ltac lmc := eapply LM_eq; [repeat (eapply LM_cat; [lm|]); lm|reflexivity].

Lemma LM_handler h c hook i s : plain_image (getopt (im_filename i)) -> LM (L_handler h c hook i s) (changes h c i s).
Proof.
  intros PL. destruct h; cbn [L_handler]; try solve [lmc].
  - eapply LM_eq; [eapply LM_cat; [lm|]; eapply LM_cat; [lm|]; eapply LM_cat; [apply LM_opt, LM_one; reflexivity|lm]|].
    cbn [changes]. rewrite app_nil_r. reflexivity.
  - (* eMMC *)
    assert (N1 : emmc_inactive c = match wx_bp c with Some (Some a) => Nat.modulo (a + 1) 2 | _ => 0%nat end).
    { unfold emmc_inactive. destruct (wx_bp c) as [[a|]|]; reflexivity. }
    assert (N2 : sl_device (emmc_part c s) = append (getopt (wx_realdev c)) (if Nat.eqb (emmc_inactive c) 0 then "boot0" else "boot1")).
    { unfold emmc_part. cbn [sl_device]. unfold emmc_dev. rewrite inactive_cases. destruct (Nat.eqb _ 0); reflexivity. }
    eapply LM_eq; [eapply LM_cat; [repeat (eapply LM_cat; [lm|]); lm|repeat (eapply LM_cat; [lm|]); lm]|].
    cbn [changes app]. rewrite <- N1, N2. reflexivity.
  - unfold changes, part_of. destruct (wx_part c) as [p|]; lmc.
  - unfold changes, part_of. destruct (wx_part c) as [p|]; lmc.
  - unfold changes. destruct (wx_clear c) as [[|]|]; (eapply LM_eq; [repeat (eapply LM_cat; [lm|]); lm|reflexivity]).
Qed.

Lemma c59_changes_ok : forall h o c hook i s mp w',
  mp (sl_name s) = None ->
  (forall suf, In suf [".caibx"; ".caidx"; ".catar"] -> has_suffix suf (getopt (im_filename i)) = false) ->
  slot_handler h o c hook i s (mkWst [] mp) = (true, w') ->
  map fst (filter (fun e => modifying (fst e)) (ws_tr w')) = changes h c i s.
Proof.
  intros h o c hook i s mp w' M PL E. apply run_facts in E; [|exact M]. apply (LM_handler h c hook i s); [|exact E].
  repeat split; apply PL; cbn; auto.
Qed.

(** ** mounting *)
Definition LF (Pd : act -> Prop) (P : lang) : Prop := forall l, P l -> Forall (fun e : act * bool => Pd (fst e)) l.
Lemma LF_cat (Pd : act -> Prop) (P Q : lang) : LF Pd P -> LF Pd Q -> LF Pd (cat P Q).
Proof. intros A B l (a & b & -> & HA & HB). apply Forall_app. auto. Qed.
Lemma LF_eps (Pd : act -> Prop) : LF Pd eps. Proof. intros l ->. constructor. Qed.
Lemma LF_opt (Pd : act -> Prop) b (P : lang) : LF Pd P -> LF Pd (opt b P).
Proof. destruct b; [auto|intros _; apply LF_eps]. Qed.
Lemma LF_one (Pd : act -> Prop) a : Pd a -> LF Pd (one a).
Proof. intros H l ->. constructor; [exact H|constructor]. Qed.
Definition mount_cmd (c : wctx) (i : image) (s : slot) (a : act) : Prop :=
  forall args inp out, a = ARun ("mount" :: args) inp out ->
    exists x, (x = s \/ seeds c i x) /\
      args = ["-t"; sl_type x] ++ match sx_mount (wx_ext c (sl_name x)) with Some o => ["-o"; o] | None => [] end ++
             [if String.eqb (sl_type x) "jffs2" then basename (sl_device x) else sl_device x; (wx_prefix c ++ "/" ++ sl_name x)%string].
Lemma mount_cmd_mount c i s x : x = s \/ seeds c i x -> mount_cmd c i s (mount_act c x).
Proof.
  intros H args inp out E. exists x. split; [exact H|]. unfold mount_act, mount_argv in E. cbn [app] in E. injection E as E1 _ _. rewrite <- E1. reflexivity.
Qed.
Lemma mount_cmd_other c i s a : (forall args inp out, a <> ARun ("mount" :: args) inp out) -> mount_cmd c i s a.
Proof. intros H args inp out E. destruct (H _ _ _ E). Qed.
Ltac mco := apply mount_cmd_other; intros ? ? ?; discriminate.
Lemma mount_cmd_casync c i s args file seed dest out : mount_cmd c i s (casync_act c args file seed dest out).
Proof. apply mount_cmd_other. intros ? ? ?. unfold casync_act, casync_argv. destruct (wx_desync c); discriminate. Qed.
Lemma LF_casync n c i s file dest out : LF (mount_cmd c i s) (L_casync n c i file dest out).
Proof.
  intros l H. destruct H; repeat (constructor; [cbn [fst]; first [apply mount_cmd_casync|apply mount_cmd_mount; now right|mco]|]); constructor.
Qed.
Lemma LF_mounted c i s (P : lang) : LF (mount_cmd c i s) P -> LF (mount_cmd c i s) (L_mounted c s P).
Proof.
  intros A. unfold L_mounted. apply LF_cat; [|apply LF_cat; [exact A|]].
  - intros l ->. repeat (constructor; [cbn [fst]; first [apply mount_cmd_mount; now left|mco]|]). constructor.
  - intros l [b ->]. repeat (constructor; [cbn [fst]; mco|]). constructor.
Qed.
Lemma LF_hook c' c hook en cmd i s s' mp vars : LF (mount_cmd c i s) (L_hook c' hook en cmd i s' mp vars).
Proof. apply LF_opt, LF_one. mco. Qed.
Lemma LF_hook_mounted c hook en cmd i s : LF (mount_cmd c i s) (L_hook_mounted c hook en cmd i s).
Proof. apply LF_opt, LF_mounted, LF_one. mco. Qed.
Lemma LF_unpack c i file s : LF (mount_cmd c i s) (L_unpack c i file s).
Proof. unfold L_unpack. destruct (_ || _); [apply LF_casync|apply LF_one; mco]. Qed.
Lemma LF_write c i file s : LF (mount_cmd c i s) (L_write c i file s).
Proof. unfold L_write. destruct (has_suffix _ _); [apply LF_casync|apply LF_one; mco]. Qed.
Lemma LF_ubi c i file s : LF (mount_cmd c i s) (L_ubi c i file s).
Proof. unfold L_ubi. repeat apply LF_cat; try (apply LF_one; mco). destruct (has_suffix _ _); [apply LF_casync|apply LF_one; mco]. Qed.
Lemma LF_fill c hook empty i file s : LF (mount_cmd c i s) (L_fill c hook empty i file s).
Proof. unfold L_fill. apply LF_mounted, LF_cat; [destruct empty; [apply LF_eps|apply LF_unpack]|apply LF_hook]. Qed.
Lemma LF_handler h c hook i s : LF (mount_cmd c i s) (L_handler h c hook i s).
Proof.
  destruct h; cbn [L_handler]; unfold L_area; try (destruct (wx_clear c) as [[|]|]);
    repeat first [apply LF_hook|apply LF_hook_mounted|apply LF_write|apply LF_ubi|apply LF_fill|apply LF_eps|apply LF_opt|(apply LF_one; mco)|apply LF_cat].
Qed.
Lemma cut_forall (Pd : act -> Prop) (P : lang) ev : LF Pd P -> (forall a, cleanup a = true -> Pd a) -> cut P ev -> Forall (fun e : act * bool => Pd (fst e)) ev.
Proof.
  intros H C (l1 & l2 & f & cl & HP & -> & CL & F). apply H in HP. apply Forall_app in HP. destruct HP as [F1 F2].
  apply Forall_app. split; [exact F1|]. apply Forall_app. split.
  - destruct F as [->|(a & l2' & -> & ->)]; [constructor|]. constructor; [|constructor]. now inversion F2.
  - eapply Forall_impl; [|exact CL]. intros e. apply C.
Qed.
Lemma c58_mount_ok : forall h o c hook i s mp r w' args inp out b,
  mp (sl_name s) = None -> slot_handler h o c hook i s (mkWst [] mp) = (r, w') ->
  In (ARun ("mount" :: args) inp out, b) (ws_tr w') ->
  exists x, (x = s \/ seeds c i x) /\
    args = ["-t"; sl_type x] ++ match sx_mount (wx_ext c (sl_name x)) with Some o => ["-o"; o] | None => [] end ++
           [if String.eqb (sl_type x) "jffs2" then basename (sl_device x) else sl_device x; (wx_prefix c ++ "/" ++ sl_name x)%string].
Proof.
  intros h o c hook i s mp r w' args inp out b M E IN. apply run_facts in E; [|exact M].
  assert (F : Forall (fun e : act * bool => mount_cmd c i s (fst e)) (ws_tr w')).
  { destruct r; [now apply (LF_handler h c hook i s)|]. eapply cut_forall; [apply (LF_handler h c hook i s)| |exact E].
    intros a CL. apply mount_cmd_other. intros ? ? ? ->. discriminate. }
  rewrite Forall_forall in F. apply (F _ IN _ _ _ eq_refl).
Qed.

(** ** the environment of hooks *)
Lemma fold_vars_other vars k (e : list (string * string)) : ~ In k (map fst vars) ->
  assoc k (fold_left (fun e kv => assoc_set (fst kv) (snd kv) e) vars e) = assoc k e.
Proof.
  revert e. induction vars as [|[k' v] vars IH]; intros e N; [reflexivity|]. cbn [fold_left fst snd]. rewrite IH.
  - apply assoc_set_neq. intros X. apply N. now left.
  - intros X. apply N. now right.
Qed.
Lemma vars_keys h c s k : h <> H_boot_emmc -> In k (map fst (hook_vars h c s)) -> has_prefix "RAUC_BOOT_" k = true.
Proof.
  intros NE IN. destruct h; cbn in IN; try contradiction; try congruence;
    repeat (destruct IN as [<-|IN]; [reflexivity|]); contradiction.
Qed.

Lemma print_Z_ok : forall z, is_decimal (print_Z z) z.
Proof.
  intros z. unfold is_decimal, print_Z. exists (print_num 10 (Z.abs_N z)).
  destruct (Z.ltb_spec z 0) as [L|L].
  - replace (Z.to_N (- z)) with (Z.abs_N z) by lia. split; [reflexivity|]. split; [apply print_num_nonempty|]. split; [apply print_num_chars; lia|]. apply horner_print; lia.
  - replace (Z.to_N z) with (Z.abs_N z) by lia. split; [reflexivity|]. split; [apply print_num_nonempty|]. split; [apply print_num_chars; lia|]. apply horner_print; lia.
Qed.
Lemma c59_env_ok : forall h o c hook i s mp r w' t1 hk cmd env b t2,
  h <> H_boot_emmc -> mp (sl_name s) = None ->
  (forall p, sl_parent s = Some p -> exists ps, In ps (wx_slots c) /\ sl_name ps = p) ->
  slot_handler h o c hook i s (mkWst [] mp) = (r, w') -> ws_tr w' = t1 ++ (AHook hk cmd env, b) :: t2 ->
  let x := wx_ext c (sl_name s) in
  (* the slot *)
  assoc "RAUC_SLOT_NAME" env = Some (sl_name s) /\ assoc "RAUC_SLOT_CLASS" env = Some (sl_class s) /\
  assoc "RAUC_SLOT_TYPE" env = Some (sl_type s) /\ assoc "RAUC_SLOT_DEVICE" env = Some (sl_device s) /\
  assoc "RAUC_SLOT_STATE" env = Some (sx_state x) /\ assoc "RAUC_SLOT_PARENT" env = Some (parent_name s) /\
  (exists n, boot_name c s n /\ assoc "RAUC_SLOT_BOOTNAME" env = Some (getopt n)) /\
  (* the image *)
  assoc "RAUC_IMAGE_NAME" env = Some (getopt (im_filename i)) /\ (exists t, assoc "RAUC_IMAGE_SIZE" env = Some t /\ is_decimal t (im_size i)) /\
  assoc "RAUC_IMAGE_DIGEST" env = Some (getopt (im_digest i)) /\ assoc "RAUC_IMAGE_CLASS" env = Some (im_class i) /\
  (* the system and the bundle *)
  assoc "RAUC_SYSTEM_COMPATIBLE" env = Some (getopt (wx_compatible c)) /\ assoc "RAUC_SYSTEM_VARIANT" env = Some (getopt (wx_variant c)) /\
  assoc "RAUC_SYSTEM_VERSION" env = Some (getopt (wx_version c)) /\ assoc "RAUC_MOUNT_PREFIX" env = Some (wx_prefix c) /\
  assoc "RAUC_BUNDLE_MOUNT_POINT" env = option_map snd (wx_bundle c) /\
  assoc "RAUC_BUNDLE_SPKI_HASHES" env = option_map (fun hb => join " " (fst hb)) (wx_bundle c) /\
  (* where the slot is mounted while the hook runs *)
  ((exists m, mounts t1 = [(if String.eqb (sl_type s) "jffs2" then basename (sl_device s) else sl_device s, m)] /\
              assoc "RAUC_SLOT_MOUNT_POINT" env = Some m) \/
   (mounts t1 = [] /\ assoc "RAUC_SLOT_MOUNT_POINT" env = sx_ext_mp x)).
Proof.
  intros h o c hook i s mp r w' t1 hk cmd env b t2 NE M PP E X x. destruct (hook_facts _ _ _ _ _ _ _ _ _ M E _ _ _ _ _ _ X) as [EN TAB].
  assert (EN2 : env = hook_env c i s (if mounted_hook h cmd then Some (mount_point c s) else None) (hook_vars h c s)) by (destruct h; try exact EN; congruence).
  clear EN. assert (G : forall k, has_prefix "RAUC_BOOT_" k = false -> assoc k env = assoc k (hook_env c i s (if mounted_hook h cmd then Some (mount_point c s) else None) [])).
  { intros k HK. rewrite EN2. unfold hook_env. apply fold_vars_other. intros IN. apply vars_keys in IN; [congruence|exact NE]. }
  assert (PO : match sl_parent s with Some p => exists ps, parent_of c s = Some ps /\ In ps (wx_slots c) /\ sl_name ps = p | None => parent_of c s = None end).
  { unfold parent_of. destruct (sl_parent s) as [p|]; [|reflexivity]. destruct (PP p eq_refl) as (ps & IN & NM).
    destruct (find (fun x => String.eqb (sl_name x) p) (wx_slots c)) as [q|] eqn:FD.
    - apply find_some in FD. destruct FD as [F1 F2]. apply String.eqb_eq in F2. eauto.
    - exfalso. eapply find_none in FD; [|exact IN]. rewrite NM, String.eqb_refl in FD. discriminate. }
  rewrite !G by reflexivity. unfold hook_env. cbn [fold_left].
  set (mpv := match (if mounted_hook h cmd then Some (mount_point c s) else None), sx_ext_mp x with Some m, _ => [("RAUC_SLOT_MOUNT_POINT", m)] | None, Some m => [("RAUC_SLOT_MOUNT_POINT", m)] | None, None => [] end).
  fold x. fold mpv.
  assert (SK : forall k l, String.eqb "RAUC_SLOT_MOUNT_POINT" k = false -> assoc k (mpv ++ l) = assoc k l).
  { intros k l HK. unfold mpv. destruct (mounted_hook h cmd); [|destruct (sx_ext_mp x)]; cbn [app assoc]; rewrite ?HK; reflexivity. }
  cbn [app]. cbn [assoc String.eqb Ascii.eqb Bool.eqb].
  rewrite !SK by reflexivity.
  split; [reflexivity|]. split; [reflexivity|]. split; [reflexivity|]. split; [reflexivity|]. split; [reflexivity|].
  split; [unfold parent_name; destruct (sl_parent s); [destruct PO as (ps & -> & _ & ->)|rewrite PO]; reflexivity|].
  split. { unfold boot_name. destruct (sl_parent s) as [p|]; [destruct PO as (ps & -> & IN & NM); exists (sl_bootname ps); eauto|rewrite PO; eauto]. }
  split; [reflexivity|]. split; [eexists; split; [reflexivity|apply print_Z_ok]|]. split; [reflexivity|]. split; [reflexivity|].
  split; [reflexivity|]. split; [reflexivity|]. split; [reflexivity|]. split; [reflexivity|].
  split; [destruct (wx_bundle c) as [[? ?]|]; reflexivity|]. split; [destruct (wx_bundle c) as [[? ?]|]; reflexivity|].
  rewrite TAB. unfold mpv. destruct (mounted_hook h cmd); [left|right].
  - exists (mount_point c s). split; reflexivity.
  - split; [reflexivity|]. destruct (sx_ext_mp x); [reflexivity|]. destruct (wx_bundle c) as [[? ?]|]; reflexivity.
Qed.

(** for which images and hooks the slot is mounted *)
Lemma c59_mounted_ok : forall h o c hook i s mp r w' t1 hk cmd env b t2,
  mp (sl_name s) = None -> slot_handler h o c hook i s (mkWst [] mp) = (r, w') -> ws_tr w' = t1 ++ (AHook hk cmd env, b) :: t2 ->
  (mounts t1 <> [] <->
   cmd = "slot-pre-install" /\ In h [H_img_to_fs; H_img_to_ubifs; H_archive_to_ubifs; H_archive_to_jffs2] \/
   cmd = "slot-post-install" /\ In h [H_img_to_fs; H_img_to_ubifs; H_archive_to_ubifs; H_archive_to_jffs2; H_archive_to_ext4; H_archive_to_vfat]).
Proof.
  intros h o c hook i s mp r w' t1 hk cmd env b t2 M E X. destruct (hook_facts _ _ _ _ _ _ _ _ _ M E _ _ _ _ _ _ X) as [_ ->].
  unfold mounted_hook, pre_cmd, post_cmd. destruct (String.eqb_spec cmd "slot-pre-install") as [->|N1]; [|destruct (String.eqb_spec cmd "slot-post-install") as [->|N2]].
  - destruct h; (split; [intros Y; first [exfalso; apply Y; reflexivity|left; split; [reflexivity|cbn; auto 10]]
      |intros [[_ Y]|[Y _]]; [first [discriminate|(exfalso; cbn in Y; clear -Y; repeat destruct Y as [Y|Y]; first [discriminate|contradiction])]|discriminate]]).
  - destruct h; (split; [intros Y; first [exfalso; apply Y; reflexivity|right; split; [reflexivity|cbn; auto 10]]
      |intros [[Y _]|[_ Y]]; [discriminate|first [discriminate|(exfalso; cbn in Y; clear -Y; repeat destruct Y as [Y|Y]; first [discriminate|contradiction])]]]).
  - split; [congruence|]. intros [[Y _]|[Y _]]; congruence.
Qed.

(** the partition named to the hooks is the one that is written and activated *)
Lemma c59_partition_ok : forall h o c hook i s mp r w' hk cmd env b,
  h = H_boot_mbr_switch \/ h = H_boot_gpt_switch -> mp (sl_name s) = None ->
  slot_handler h o c hook i s (mkWst [] mp) = (r, w') -> In (AHook hk cmd env, b) (ws_tr w') ->
  exists start size, wx_part c = Some (start, size) /\
    assoc "RAUC_BOOT_PARTITION_START" env = Some (print_num 10 start) /\ assoc "RAUC_BOOT_PARTITION_SIZE" env = Some (print_num 10 size) /\
    assoc "RAUC_BOOT_PARTITION_ACTIVATING" env = Some (if N.eqb start (sx_start (wx_ext c (sl_name s))) then "0" else "1") /\
    forall a b', In (a, b') (ws_tr w') -> modifying a = true ->
      In a [AClear (sl_device s) start (Some size); AWriteAt (getopt (im_filename i)) (sl_device s) start size 0; ASwitch (sl_device s) start size].
Proof.
  intros h o c hook i s mp r w' hk cmd env b HH M E IN.
  assert (PT : exists start size, wx_part c = Some (start, size)).
  { destruct (wx_part c) as [[start size]|] eqn:P; [eauto|]. exfalso. destruct HH as [-> | ->]; cbn [slot_handler] in E; unfold img_to_boot_switch in E; rewrite P in E;
      unfold refuse in E; assert (w' = mkWst [] mp) by congruence; subst w'; exact IN. }
  destruct PT as (start & size & PT). exists start, size. split; [exact PT|].
  apply in_split in IN. destruct IN as (t1 & t2 & X). destruct (hook_facts _ _ _ _ _ _ _ _ _ M E _ _ _ _ _ _ X) as [EN _].
  assert (EN2 : exists e0, env = assoc_set "RAUC_BOOT_PARTITION_SIZE" (print_num 10 size) (assoc_set "RAUC_BOOT_PARTITION_START" (print_num 10 start)
     (assoc_set "RAUC_BOOT_PARTITION_ACTIVATING" (if N.eqb start (sx_start (wx_ext c (sl_name s))) then "0" else "1") e0))).
  { destruct HH as [-> | ->]; unfold hook_env, hook_vars, switch_vars, part_of in EN; rewrite PT in EN; cbn [fold_left fst snd] in EN; rewrite EN; eauto. }
  destruct EN2 as [e0 ->]. split; [rewrite assoc_set_neq, assoc_set_eq by discriminate; reflexivity|]. split; [now rewrite assoc_set_eq|].
  split; [rewrite !assoc_set_neq, assoc_set_eq by discriminate; reflexivity|].
  set (Pd := fun a : act => modifying a = true -> In a [AClear (sl_device s) start (Some size); AWriteAt (getopt (im_filename i)) (sl_device s) start size 0; ASwitch (sl_device s) start size]).
  assert (LFH : LF Pd (L_handler h c hook i s)).
  { assert (HK : forall en cmd vars, LF Pd (L_hook c hook en cmd i s None vars)) by (intros; apply LF_opt, LF_one; intros D; discriminate).
    destruct HH as [-> | ->]; cbn [L_handler]; unfold part_of; rewrite PT; cbn [fst snd];
      repeat first [apply HK|apply LF_cat|(apply LF_one; intros _; cbn; tauto)]. }
  apply run_facts in E; [|exact M].
  assert (F : Forall (fun e : act * bool => Pd (fst e)) (ws_tr w')).
  { destruct r; [now apply LFH|]. eapply cut_forall; [exact LFH| |exact E]. intros a CL D. apply cleanup_not in CL. destruct CL. congruence. }
  intros a b' IN2. rewrite Forall_forall in F. exact (F _ IN2).
Qed.

(** ** file system labels *)
Lemma smap_len f s : String.length (smap f s) = String.length s.
Proof. induction s; cbn; congruence. Qed.
Lemma stake_len n s : (String.length (stake n s) <= n)%nat.
Proof. revert s. induction n as [|n IH]; intros [|a s]; cbn; try lia. specialize (IH s). lia. Qed.
Definition vfat_ok (a : ascii) : bool :=
  negb (Nat.leb 97 (nat_of_ascii a) && Nat.leb (nat_of_ascii a) 122) && negb (in_string a "*?.,;:/\|+=<>[]""").
Lemma vfat_char_ok a : vfat_ok (vfat_char a) = true.
Proof. destruct a as [[] [] [] [] [] [] [] []]; vm_compute; reflexivity. Qed.
Lemma all_smap f p s : (forall a, p (f a) = true) -> all_chars p (smap f s) = true.
Proof. intros H. induction s as [|a s IH]; [reflexivity|]. cbn [smap all_chars]. now rewrite H, IH. Qed.
Lemma c59_vfat_label_ok : forall name,
  (String.length (vfat_label name) <= 11)%nat /\
  (forall a, in_string a (vfat_label name) = true ->
     ~ (97 <= nat_of_ascii a <= 122)%nat /\ in_string a "*?.,;:/\|+=<>[]""" = false).
Proof.
  intros name. split.
  - unfold vfat_label. rewrite smap_len. destruct (Nat.ltb 11 (String.length name)) eqn:E; [apply stake_len|]. apply Nat.ltb_ge in E. exact E.
  - intros a H. assert (A : all_chars vfat_ok (vfat_label name) = true) by (apply all_smap, vfat_char_ok).
    assert (B : vfat_ok a = true).
    { clear -A H. revert A H. generalize (vfat_label name). intros x. induction x as [|b x IH]; [discriminate|]. cbn [all_chars in_string]. intros A H.
      apply andb_true_iff in A. destruct A as [A1 A2]. apply orb_true_iff in H. destruct H as [H|H]; [apply Ascii.eqb_eq in H; now subst|auto]. }
    unfold vfat_ok in B. apply andb_true_iff in B. destruct B as [B1 B2]. split.
    + intros [L U]. apply Nat.leb_le in L, U. rewrite L, U in B1. discriminate.
    + now apply negb_true_iff.
Qed.
(** short names without special characters only change case *)
Lemma c59_vfat_label_keeps_ok : forall name, (String.length name <= 11)%nat ->
  String.length (vfat_label name) = String.length name.
Proof. intros name H. unfold vfat_label. rewrite smap_len. apply Nat.leb_le in H. rewrite Nat.ltb_antisym, H. reflexivity. Qed.
Lemma c59_vfat_label_unique_refuted : exists a b, a <> b /\ vfat_label a = vfat_label b /\ vfat_label a = "BOOTLOADER_".
Proof. exists "bootloader.0", "bootloader.1". split; [discriminate|split; reflexivity]. Qed.

(** ** compression flags *)
Lemma slen_app2 (a b : string) : String.length (a ++ b)%string = (String.length a + String.length b)%nat.
Proof. induction a; cbn; congruence. Qed.
Lemma sdrop_all a : sdrop (String.length a) a = "".
Proof. induction a; cbn; auto. Qed.
Lemma sdrop_app_ge : forall (a b : string) n, (String.length a <= n)%nat -> sdrop n (a ++ b)%string = sdrop (n - String.length a) b.
Proof.
  induction a as [|x a IH]; intros b n H; [now rewrite Nat.sub_0_r|]. cbn [String.length] in H. destruct n; [lia|]. cbn [append sdrop String.length]. rewrite IH by lia. f_equal.
Qed.
Lemma sdrop_app_le : forall (a b : string) n, (n <= String.length a)%nat -> sdrop n (a ++ b)%string = (sdrop n a ++ b)%string.
Proof.
  induction a as [|x a IH]; intros b n H; [cbn in H; assert (n = 0%nat) by lia; now subst|]. destruct n; [reflexivity|]. cbn in *. apply IH. lia.
Qed.
Lemma has_suffix_inv suf s : has_suffix suf s = true -> exists y, s = (y ++ suf)%string.
Proof.
  unfold has_suffix. intros H. apply andb_true_iff in H. destruct H as [_ H]. apply String.eqb_eq in H.
  assert (G : forall n x, exists y, x = (y ++ sdrop n x)%string).
  { induction n as [|n IH]; intros x; [now exists ""|]. destruct x as [|ch x]; [now exists ""|]. destruct (IH x) as [y E]. exists (String ch y). cbn. now rewrite <- E. }
  destruct (G (String.length s - String.length suf)%nat s) as [y E]. exists y. now rewrite H in E.
Qed.
Lemma has_suffix_app y suf : has_suffix suf (y ++ suf)%string = true.
Proof.
  unfold has_suffix. rewrite slen_app2. apply andb_true_iff. split; [apply Nat.leb_le; lia|]. apply String.eqb_eq.
  rewrite sdrop_app_ge by lia. replace (String.length y + String.length suf - String.length suf - String.length y)%nat with 0%nat by lia. reflexivity.
Qed.
Lemma app_align (a b c d : string) : (a ++ b)%string = (c ++ d)%string -> (exists z, b = (z ++ d)%string) \/ (exists z, d = (z ++ b)%string).
Proof.
  revert c. induction a as [|x a IH]; intros c E; [left; exists c; exact E|]. destruct c as [|y c]; [right; exists (String x a); symmetry; exact E|].
  cbn in E. apply (IH c). congruence.
Qed.
Lemma has_suffix_two suf suf' base : has_suffix suf' (base ++ suf)%string = true -> has_suffix suf' suf = true \/ has_suffix suf suf' = true.
Proof.
  intros H. apply has_suffix_inv in H. destruct H as [y E]. apply app_align in E. destruct E as [[z ->]|[z ->]]; [left|right]; apply has_suffix_app.
Qed.
Lemma has_suffix_step suf suf' base : has_suffix suf suf' = false \/ suf = suf' -> has_suffix suf' (base ++ suf)%string = has_suffix suf' suf.
Proof.
  intros C. destruct (has_suffix suf' suf) eqn:E.
  - apply has_suffix_inv in E. destruct E as [y E]. rewrite E. 
    assert (A : (base ++ (y ++ suf'))%string = ((base ++ y) ++ suf')%string) by (clear; induction base; cbn; congruence). rewrite A. apply has_suffix_app.
  - destruct (has_suffix suf' (base ++ suf)%string) eqn:F; [|reflexivity]. apply has_suffix_two in F. destruct F as [F|F]; [congruence|].
    destruct C as [C|C]; [congruence|subst]. congruence.
Qed.
Lemma find_ext_all {A} (f g : A -> bool) l : Forall (fun x => f x = g x) l -> find f l = find g l.
Proof. induction 1 as [|x l E _ IH]; [reflexivity|]. cbn. now rewrite E, IH. Qed.
Lemma c59_tar_flag_ok : forall base suf flag, In (suf, flag) compressions -> tar_flag (base ++ suf)%string = flag.
Proof.
  intros base suf flag IN.
  assert (A : forall sf, In sf compressions -> Forall (fun e : string * option string => has_suffix (fst sf) (fst e) = false \/ fst sf = fst e) tar_suffixes /\ tar_flag (fst sf) = snd sf).
  { intros sf H. cbn [In compressions] in H. repeat (destruct H as [<-|H]; [split; [repeat (constructor; [first [left; reflexivity|right; reflexivity]|]); constructor|reflexivity]|]). contradiction. }
  destruct (A _ IN) as [F T]. cbn [fst snd] in *. rewrite <- T. unfold tar_flag. rewrite (find_ext_all _ (fun e => has_suffix (fst e) suf) tar_suffixes); [reflexivity|].
  eapply Forall_impl; [|exact F]. intros e C. now apply has_suffix_step.
Qed.
