From Verif Require Import Base Slot Image Handlers KeyFile KeyFileLemmas SlotWrite SlotWriteSpec SlotWriteProofs SlotWriteTop SlotWriteThms SlotWriteBal SlotWriteConf SlotWriteEnv SlotWriteRecipe SlotWriteMore.

(** ** the changes of a successful run, casync or not *)
Definition LMe (P : lang) (S : list act -> Prop) : Prop := forall l, P l -> S (mods l).
Lemma LM_LMe (P : lang) x : LM P x -> LMe P (eq x).
Proof. intros H l HL. symmetry. now apply H. Qed.
Lemma LMe_imp (P : lang) (S S' : list act -> Prop) : (forall x, S x -> S' x) -> LMe P S -> LMe P S'.
Proof. intros H A l HL. auto. Qed.
Lemma LMe_cat (P Q : lang) (S S' T : list act -> Prop) : LMe P S -> LMe Q S' -> (forall x y, S x -> S' y -> T (x ++ y)) -> LMe (cat P Q) T.
Proof. intros A B H l (a & b & -> & HA & HB). rewrite mods_app. auto. Qed.
Definition tool (c : wctx) (out : option string) (x : list act) : Prop :=
  exists argv, hd "" argv = (if wx_desync c then "desync" else "casync") /\ x = [ARun argv None out].
Lemma mods_cons_n a b l : modifying a = false -> mods ((a, b) :: l) = mods l.
Proof. intros H. unfold mods. cbn [filter fst]. now rewrite H. Qed.
Lemma mods_cons_y a b l : modifying a = true -> mods ((a, b) :: l) = a :: mods l.
Proof. intros H. unfold mods. cbn [filter fst]. now rewrite H. Qed.
Lemma modifying_casync c args file seed dest out : modifying (casync_act c args file seed dest out) = true.
Proof. unfold modifying, casync_act, casync_argv. destruct (wx_desync c); reflexivity. Qed.
Lemma LMe_casync n c i file dest out : LMe (L_casync n c i file dest out) (tool c out).
Proof.
  assert (T : forall args seed, tool c out [casync_act c args file seed dest out]).
  { intros args seed. exists (casync_argv c args file seed (match out with Some _ => "-" | None => dest end)). split; [unfold casync_argv; destruct (wx_desync c); reflexivity|reflexivity]. }
  intros l H. destruct H; repeat first [rewrite mods_cons_n by reflexivity|rewrite mods_cons_y by apply modifying_casync]; cbn [mods map filter];
    try apply T.
Qed.
Lemma LMe_mounted c s (P : lang) S : LMe P S -> LMe (L_mounted c s P) S.
Proof.
  intros A l (a & b & -> & HA & p & u & -> & HP & HU). rewrite !mods_app. rewrite (LM_quiet _ (quiet_mount c s) _ HA), (LM_quiet _ (quiet_umount c s) _ HU), app_nil_r. cbn [app]. now apply A.
Qed.

Definition out_of (h : handler) (s : slot) : option string := match h with H_img_to_ubivol | H_img_to_ubifs => Some (sl_device s) | _ => None end.
Definition with_tool (h : handler) (c : wctx) (i : image) (s : slot) (x : list act) : Prop :=
  exists argv, hd "" argv = (if wx_desync c then "desync" else "casync") /\
    x = map (fun a => if is_content a then ARun argv None (out_of h s) else a) (changes h c i s).

Lemma LM_unpack_plain c i file s : has_suffix ".caidx" file || has_suffix ".catar" file = false -> LM (L_unpack c i file s) [ARun (tar_argv file (mount_point c s)) (Some file) None].
Proof. intros A. unfold L_unpack. rewrite A. apply LM_one. reflexivity. Qed.
Lemma LM_write_plain c i file s : has_suffix ".caibx" file = false -> LM (L_write c i file s) [AWrite file (sl_device s)].
Proof. intros A. unfold L_write. rewrite A. apply LM_one. reflexivity. Qed.
Lemma LM_ubi_plain c i file s : has_suffix ".caibx" file = false -> LM (L_ubi c i file s) [AVolUp (sl_device s) (im_size i); ACopy file (sl_device s)].
Proof.
  intros A. unfold L_ubi. rewrite A. change [AVolUp (sl_device s) (im_size i); ACopy file (sl_device s)] with ([] ++ [AVolUp (sl_device s) (im_size i)] ++ [ACopy file (sl_device s)] ++ []).
  apply LM_cat; [apply LM_none; reflexivity|]. apply LM_cat; [apply LM_one; reflexivity|]. apply LM_cat; [apply LM_one|apply LM_none]; reflexivity.
Qed.
Lemma LM_fill_plain c hook (empty : bool) i file s : (empty = false -> has_suffix ".caidx" file || has_suffix ".catar" file = false) ->
  LM (L_fill c hook empty i file s) (if empty then [] else [ARun (tar_argv file (mount_point c s)) (Some file) None]).
Proof.
  intros A. unfold L_fill. apply LM_mounted. rewrite <- (app_nil_r (if empty then _ else _)). apply LM_cat; [|apply LM_hook].
  destruct empty; [apply LM_eps|apply LM_unpack_plain; auto].
Qed.
Ltac lm2 := first [apply LM_hook|apply LM_hook_mounted|apply LM_write_plain; assumption|apply LM_ubi_plain; assumption|(apply LM_fill_plain; intros _; assumption)|apply LM_eps|apply LM_area
  |apply LM_one; reflexivity|apply LM_none; reflexivity].
Ltac lmc2 := eapply LM_eq; [repeat (eapply LM_cat; [lm2|]); lm2|reflexivity].
Lemma LM_handler_plain h c hook i s : indexed h i = false -> LM (L_handler h c hook i s) (changes h c i s).
Proof.
  intros PL. destruct h; cbn [indexed] in PL; cbn [L_handler]; try solve [lmc2].
  - eapply LM_eq; [eapply LM_cat; [lm2|]; eapply LM_cat; [lm2|]; eapply LM_cat; [apply LM_opt, LM_one; reflexivity|lm2]|].
    cbn [changes]. rewrite app_nil_r. reflexivity.
  - eapply LM_eq; [eapply LM_cat; [lm2|]; eapply LM_cat; [lm2|]; apply LM_fill_plain|].
    + unfold emptyfs. intros X. rewrite X in PL. exact PL.
    + reflexivity.
  - (* eMMC *)
    assert (N1 : emmc_inactive c = match wx_bp c with Some (Some a) => Nat.modulo (a + 1) 2 | _ => 0%nat end).
    { unfold emmc_inactive. destruct (wx_bp c) as [[a|]|]; reflexivity. }
    assert (N2 : sl_device (emmc_part c s) = append (getopt (wx_realdev c)) (if Nat.eqb (emmc_inactive c) 0 then "boot0" else "boot1")).
    { unfold emmc_part. cbn [sl_device]. unfold emmc_dev. rewrite inactive_cases. destruct (Nat.eqb _ 0); reflexivity. }
    eapply LM_eq; [eapply LM_cat; [repeat (eapply LM_cat; [lm2|]); lm2|repeat (eapply LM_cat; [lm2|]); lm2]|].
    cbn [changes app]. rewrite <- N1, N2. reflexivity.
  - unfold changes, part_of. destruct (wx_part c) as [p|]; lmc2.
  - unfold changes, part_of. destruct (wx_part c) as [p|]; lmc2.
  - unfold changes. destruct (wx_clear c) as [[|]|]; (eapply LM_eq; [repeat (eapply LM_cat; [lm2|]); lm2|reflexivity]).
Qed.

Lemma LMe_unpack c i file s : has_suffix ".caidx" file || has_suffix ".catar" file = true -> LMe (L_unpack c i file s) (tool c None).
Proof. intros A. unfold L_unpack. rewrite A. apply LMe_casync. Qed.
Lemma LMe_fill c hook i file s : has_suffix ".caidx" file || has_suffix ".catar" file = true -> LMe (L_fill c hook false i file s) (tool c None).
Proof.
  intros A. unfold L_fill. apply LMe_mounted. eapply LMe_cat; [now apply LMe_unpack|apply LM_LMe, LM_hook|]. intros x y T <-. now rewrite app_nil_r.
Qed.
Lemma LMe_archive P c hook i file s fmt h :
  has_suffix ".caidx" file || has_suffix ".catar" file = true -> LM P [] -> modifying fmt = true -> is_content fmt = false ->
  out_of h s = None -> (exists tar, is_content tar = true /\ changes h c i s = [fmt; tar]) ->
  LMe (cat P (cat (one fmt) (L_fill c hook false i file s))) (with_tool h c i s).
Proof.
  intros A HP HF HC HO (tar & HT & CH). eapply LMe_cat; [apply LM_LMe, HP|eapply (LMe_cat _ _ _ _ (fun x => exists argv, hd "" argv = (if wx_desync c then "desync" else "casync") /\ x = [fmt; ARun argv None None])); [apply LM_LMe, LM_one, HF|now apply (LMe_fill c hook i file s)|]|].
  - intros x y <- (argv & HD & ->). exists argv. auto.
  - intros x y <- (argv & HD & ->). exists argv. split; [exact HD|]. rewrite CH. cbn [map app]. rewrite HC, HT, HO. reflexivity.
Qed.
Lemma LMe_handler h c hook i s : indexed h i = true -> LMe (L_handler h c hook i s) (with_tool h c i s).
Proof.
  intros PL. destruct h; cbn [indexed] in PL; try discriminate; cbn [L_handler].
  - eapply LMe_cat; [apply LM_LMe, LM_hook_mounted| |].
    + eapply (LMe_cat _ _ _ _ (with_tool H_img_to_fs c i s)); [unfold L_write; rewrite PL; apply LMe_casync|eapply LM_LMe, LM_cat; [apply LM_opt, LM_one; reflexivity|apply LM_hook_mounted]|].
      intros x y (argv & HD & ->) <-. exists argv. split; [exact HD|]. rewrite app_nil_r. cbn [changes map is_content app out_of].
      destruct (sx_resize _ && _); reflexivity.
    + intros x y <- T. exact T.
  - eapply LMe_cat; [apply LM_LMe, LM_hook| |].
    + eapply (LMe_cat _ _ _ _ (with_tool H_img_to_raw c i s)); [unfold L_write; rewrite PL; apply LMe_casync|apply LM_LMe, LM_hook|].
      intros x y (argv & HD & ->) <-. exists argv. split; [exact HD|]. reflexivity.
    + intros x y <- T. exact T.
  - eapply LMe_cat; [apply LM_LMe, LM_hook| |].
    + eapply (LMe_cat _ _ _ _ (with_tool H_img_to_ubivol c i s)); [|apply LM_LMe, LM_hook|].
      * unfold L_ubi. rewrite PL. eapply (LMe_cat _ _ _ _ (with_tool H_img_to_ubivol c i s)); [apply LM_LMe, LM_none; reflexivity| |].
        -- eapply (LMe_cat _ _ _ _ (with_tool H_img_to_ubivol c i s)); [apply LM_LMe, LM_one; reflexivity| |].
           ++ eapply (LMe_cat _ _ _ _ (tool c (Some (sl_device s)))); [apply LMe_casync|apply LM_LMe, LM_none; reflexivity|]. intros x y T <-. now rewrite app_nil_r.
           ++ intros x y <- (argv & HD & ->). exists argv. split; [exact HD|reflexivity].
        -- intros x y <- T. exact T.
      * intros x y T <-. now rewrite app_nil_r.
    + intros x y <- T. exact T.
  - eapply LMe_cat; [apply LM_LMe, LM_hook_mounted| |].
    + eapply (LMe_cat _ _ _ _ (with_tool H_img_to_ubifs c i s)); [|apply LM_LMe, LM_hook_mounted|].
      * unfold L_ubi. rewrite PL. eapply (LMe_cat _ _ _ _ (with_tool H_img_to_ubifs c i s)); [apply LM_LMe, LM_none; reflexivity| |].
        -- eapply (LMe_cat _ _ _ _ (with_tool H_img_to_ubifs c i s)); [apply LM_LMe, LM_one; reflexivity| |].
           ++ eapply (LMe_cat _ _ _ _ (tool c (Some (sl_device s)))); [apply LMe_casync|apply LM_LMe, LM_none; reflexivity|]. intros x y T <-. now rewrite app_nil_r.
           ++ intros x y <- (argv & HD & ->). exists argv. split; [exact HD|reflexivity].
        -- intros x y <- T. exact T.
      * intros x y T <-. now rewrite app_nil_r.
    + intros x y <- T. exact T.
  - apply andb_true_iff in PL. destruct PL as [EF PL]. apply negb_true_iff in EF. unfold emptyfs. rewrite EF.
    apply LMe_archive; try reflexivity; [exact PL|apply LM_hook|]. unfold changes. rewrite EF. eexists. split; [|reflexivity]. reflexivity.
  - apply LMe_archive; try reflexivity; [exact PL|apply LM_hook_mounted|]. eexists. split; [|reflexivity]. reflexivity.
  - apply LMe_archive; try reflexivity; [exact PL|apply LM_hook|]. eexists. split; [|reflexivity]. reflexivity.
  - apply LMe_archive; try reflexivity; [exact PL|apply LM_hook_mounted|]. eexists. split; [|reflexivity]. reflexivity.
Qed.

Lemma c58_changes_ok2 : forall h o c hook i s mp w',
  mp (sl_name s) = None -> indexed h i = false -> slot_handler h o c hook i s (mkWst [] mp) = (true, w') ->
  map fst (filter (fun e => modifying (fst e)) (ws_tr w')) = changes h c i s.
Proof.
  intros h o c hook i s mp w' M PL E. apply run_facts in E; [|exact M]. now apply (LM_handler_plain h c hook i s).
Qed.
Lemma c58_changes_indexed_ok : forall h o c hook i s mp w',
  mp (sl_name s) = None -> indexed h i = true -> slot_handler h o c hook i s (mkWst [] mp) = (true, w') ->
  exists argv out, hd "" argv = (if wx_desync c then "desync" else "casync") /\
    out = match h with H_img_to_ubivol | H_img_to_ubifs => Some (sl_device s) | _ => None end /\
    (* the same changes, with the content written by the tool *)
    map fst (filter (fun e => modifying (fst e)) (ws_tr w')) = map (fun a => if is_content a then ARun argv None out else a) (changes h c i s).
Proof.
  intros h o c hook i s mp w' M PL E. apply run_facts in E; [|exact M]. destruct (LMe_handler h c hook i s PL _ E) as (argv & HD & X).
  exists argv, (out_of h s). split; [exact HD|]. split; [reflexivity|exact X].
Qed.
