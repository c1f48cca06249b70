From Verif Require Import Base Slot Image Handlers KeyFile KeyFileLemmas SlotWrite SlotWriteSpec SlotWriteProofs SlotWriteTop SlotWriteThms SlotWriteBal SlotWriteConf SlotWriteEnv SlotWriteRecipe SlotWriteMore SlotWriteMore2.

(** ** when nothing fails *)
Definition okp (n : string) (mp : option string) (m : wprog) : Prop := forall w, ws_mp w n = mp -> fst (m w) = true.
Lemma okp_step n mp o a : (forall t x, o t x = true) -> okp n mp (step o a).
Proof. intros H w _. unfold step. cbn [fst]. apply H. Qed.
Lemma okp_skip n mp : okp n mp skip.
Proof. intros w _. reflexivity. Qed.
Lemma okp_seq n mp m k : bal n mp m -> okp n mp m -> okp n mp k -> okp n mp (m &&> k).
Proof.
  intros B A K w M. unfold andthen. destruct (m w) as [b w1] eqn:E. pose proof (A w M) as X. rewrite E in X. cbn in X. subst b.
  apply K. now apply (B _ _ _ M E).
Qed.
Lemma okp_when n mp b m : (b = true -> okp n mp m) -> okp n mp (when b m).
Proof. destruct b; [auto|intros _; apply okp_skip]. Qed.
Lemma okp_hook n mp o c h cmd i s vars : (forall t x, o t x = true) -> okp n mp (run_hook o c (Some h) cmd i s vars).
Proof. intros H w M. unfold run_hook. now apply (okp_step n mp o _ H). Qed.
Lemma okp_hook_opt n mp o c hook en cmd i s vars : (forall t x, o t x = true) -> okp n mp (when (has_hook hook en) (run_hook o c hook cmd i s vars)).
Proof. intros H. destruct hook as [h|]; [apply okp_when; intros _; now apply okp_hook|apply okp_skip]. Qed.
Lemma fine_step o a w : (forall t x, o t x = true) -> step o a w = (true, mkWst (ws_tr w ++ [(a, true)]) (ws_mp w)).
Proof. intros H. unfold step. now rewrite H. Qed.
Lemma fine_mount o c s w : (forall t x, o t x = true) -> ws_mp w (sl_name s) = None ->
  exists w', mount_slot o c s w = (true, w') /\ forall n, ws_mp w' n = if String.eqb n (sl_name s) then Some (mount_point c s) else ws_mp w n.
Proof.
  intros H M. unfold mount_slot. rewrite M. unfold andthen. rewrite !(fine_step o _ _ H). eexists. split; [reflexivity|]. reflexivity.
Qed.
Lemma fine_umount o s w m : (forall t x, o t x = true) -> ws_mp w (sl_name s) = Some m -> fst (umount_slot o s w) = true.
Proof. intros H M. unfold umount_slot. rewrite M, (fine_step o _ _ H). reflexivity. Qed.
Lemma okp_mounted o c s m : (forall t x, o t x = true) -> okp (sl_name s) (Some (mount_point c s)) m -> keeps (sl_name s) m ->
  okp (sl_name s) None (mount_slot o c s &&> finally m (umount_slot o s)).
Proof.
  intros H A K w M. destruct (fine_mount o c s w H M) as (w1 & E1 & M1). unfold andthen. rewrite E1. unfold finally. destruct (m w1) as [b w2] eqn:E2.
  assert (S1 : ws_mp w1 (sl_name s) = Some (mount_point c s)) by (rewrite M1, String.eqb_refl; reflexivity).
  pose proof (A w1 S1) as X. rewrite E2 in X. cbn in X. subst b. assert (S2 : ws_mp w2 (sl_name s) = Some (mount_point c s)) by (rewrite (K _ _ _ E2); congruence).
  pose proof (fine_umount o s w2 _ H S2) as U. destruct (umount_slot o s w2). cbn in *. now subst.
Qed.
Lemma okp_extract n mp o c file seed dest out : (forall t x, o t x = true) -> wx_casync_args c <> None -> okp n mp (casync_extract o c file seed dest out).
Proof. intros H A w M. unfold casync_extract. destruct (wx_casync_args c); [|congruence]. now apply (okp_step n mp o _ H). Qed.
Lemma okp_casync n mp o c i file dest out : (forall t x, o t x = true) -> wx_casync_args c <> None -> okp n mp (casync_image o c i file dest out).
Proof.
  intros H A w M. unfold casync_image. destruct (if wx_desync c then None else _) as [sd|]; [|now apply (okp_extract n mp)].
  destruct (has_suffix ".caidx" file).
  - destruct (ws_mp w (sl_name sd)) as [m|] eqn:MS; [now apply (okp_extract n mp)|].
    destruct (fine_mount o c sd w H MS) as (w1 & E1 & M1). rewrite E1. assert (S1 : ws_mp w1 (sl_name sd) = Some (mount_point c sd)) by (rewrite M1, String.eqb_refl; reflexivity).
    unfold finally. destruct (casync_extract _ _ _ _ _ _ w1) as [b w2] eqn:E2.
    pose proof (okp_extract (sl_name sd) _ o c file (ws_mp w1 (sl_name sd)) dest out H A w1 S1) as X. rewrite E2 in X. cbn in X. subst b.
    assert (S2 : ws_mp w2 (sl_name sd) = Some (mount_point c sd)) by (rewrite (keeps_casync_extract (sl_name sd) _ _ _ _ _ _ _ _ _ E2); congruence).
    pose proof (fine_umount o sd w2 _ H S2) as U. destruct (umount_slot o sd w2). cbn in *. now subst.
  - rewrite (fine_step o _ _ H). now apply (okp_extract n mp).
Qed.
Lemma okp_hook_mounted o c hook en cmd i s : (forall t x, o t x = true) -> okp (sl_name s) None (when (has_hook hook en) (mount_and_run_hook o c hook cmd i s)).
Proof.
  intros H. destruct hook as [h|]; [|apply okp_skip]. apply okp_when. intros _. unfold mount_and_run_hook. apply okp_mounted; [exact H|now apply okp_hook|apply keeps_hook].
Qed.
Lemma okp_unpack n mp o c i file dest : (forall t x, o t x = true) -> (has_suffix ".caidx" file || has_suffix ".catar" file = true -> wx_casync_args c <> None) ->
  okp n mp (unpack o c i file dest).
Proof.
  intros H A. unfold unpack. destruct (has_suffix ".caidx" file); [apply okp_casync; auto|]. destruct (has_suffix ".catar" file); [apply okp_casync; auto|now apply okp_step].
Qed.
Lemma okp_write n mp o c i file s : (forall t x, o t x = true) -> (has_suffix ".caibx" file = true -> wx_casync_args c <> None) -> okp n mp (write_dev o c i file s).
Proof. intros H A. unfold write_dev. destruct (has_suffix ".caibx" file); [apply okp_casync; auto|now apply okp_step]. Qed.
Lemma okp_ubi n mp o c i file s : (forall t x, o t x = true) -> (has_suffix ".caibx" file = true -> wx_casync_args c <> None) -> okp n mp (write_ubi o c i file s).
Proof.
  intros H A. unfold write_ubi. apply okp_seq; [apply bal_step; inr|now apply okp_step|]. apply okp_seq; [apply bal_step; inr|now apply okp_step|].
  destruct (has_suffix ".caibx" file) eqn:SF.
  - apply okp_seq; [apply bal_casync; intros X; destruct (caibx_not_caidx _ SF X)|apply okp_casync; auto|now apply okp_step].
  - apply okp_seq; [apply bal_step; inr|now apply okp_step|now apply okp_step].
Qed.
Lemma okp_fill o c hook (empty : bool) i file s : (forall t x, o t x = true) ->
  (empty = false -> has_suffix ".caidx" file || has_suffix ".catar" file = true -> wx_casync_args c <> None) ->
  okp (sl_name s) None (unpack_mounted o c hook empty i file s).
Proof.
  intros H A. unfold unpack_mounted. apply okp_mounted; [exact H| |].
  - apply okp_seq; [destruct empty; [apply bal_skip|apply bal_unpack]| |now apply okp_hook_opt]. destruct empty; [apply okp_skip|apply okp_unpack; auto].
  - apply keeps_seq; [destruct empty; [apply keeps_skip|apply keeps_unpack]|apply keeps_when, keeps_hook].
Qed.
Lemma okp_guarded n mp o m dev : okp n mp m ->
  okp n mp (fun w => let (b, w1) := m w in if b then (true, w1) else (false, snd (step o (AForceRo dev true) w1))).
Proof. intros A w M. pose proof (A w M) as X. destruct (m w) as [b w1]. cbn in X. now subst b. Qed.

Ltac bl := first [apply bal_hook_mounted|apply bal_hook_opt|apply bal_write|apply bal_ubi|apply bal_fill|(apply bal_step; inr)|(apply bal_when; bl)|(apply bal_seq; [bl|bl])].
Ltac ok H A := first [(apply okp_hook_mounted; exact H)|(apply okp_hook_opt; exact H)|(apply okp_write; [exact H|exact A])|(apply okp_ubi; [exact H|exact A])
  |(apply okp_fill; [exact H|intros _; exact A])|(apply okp_step; exact H)|(apply okp_when; intros _; ok H A)|(apply okp_seq; [bl|ok H A|ok H A])].
Lemma fine_handler h o c hook i s : (forall t x, o t x = true) -> accepts h c hook i s -> okp (sl_name s) None (slot_handler h o c hook i s).
Proof.
  intros H [A B]. destruct h; cbn [slot_handler indexed accepts] in *;
    unfold img_to_fs, img_to_raw, img_to_ubivol, img_to_ubifs, img_to_nor, img_to_nand, archive_to_ubifs, archive_to_vfat, archive_to_jffs2,
      pre_hook, post_hook, pre_hook_mounted, post_hook_mounted, run; try solve [ok H A].
  - unfold archive_to_ext4, pre_hook, run. apply okp_seq; [bl|ok H A|]. apply okp_seq; [bl|ok H A|]. apply okp_fill; [exact H|]. intros EF X. apply A. now rewrite EF.
  - (* eMMC *)
    unfold img_to_boot_emmc. destruct B as (RD & before & after & BP & AF & NE). destruct (wx_realdev c) as [dev|]; [|congruence]. rewrite BP, AF.
    apply okp_seq; [unfold copy_to_bootpart, pre_hook, post_hook; apply bal_guarded; bl| |apply okp_seq; [bl|ok H A|]].
    + unfold copy_to_bootpart, pre_hook, post_hook. apply okp_guarded. ok H A.
    + destruct after as [a|]; [|apply okp_skip]. destruct (Nat.eqb_spec a (match before with Some a => a | None => 1 end)) as [->|_]; [congruence|apply okp_skip].
  - unfold img_to_boot_switch, pre_hook, post_hook. destruct B as (start & sz & PT & LE). rewrite PT. apply Z.ltb_ge in LE. rewrite LE. ok H A.
  - unfold img_to_boot_switch, pre_hook, post_hook. destruct B as (start & sz & PT & LE). rewrite PT. apply Z.ltb_ge in LE. rewrite LE. ok H A.
  - unfold img_to_boot_raw_fallback, pre_hook, post_hook. destruct B as (D1 & D2 & LE & CL). apply Z.ltb_ge in LE.
    apply N.mod_divide in D1, D2; try lia. rewrite D1, D2, LE. cbn [N.eqb negb]. apply okp_seq; [bl|ok H A|]. destruct (wx_clear c) as [[|]|]; [| |congruence]; ok H A.
  - unfold hook_install. destruct hook as [h|]; [now apply okp_hook|congruence].
Qed.

(** ** success needs the preconditions *)
Lemma andthen_true (m k : wprog) w w' : (m &&> k) w = (true, w') -> exists w1, m w = (true, w1) /\ k w1 = (true, w').
Proof. unfold andthen. destruct (m w) as [[|] w1]; [eauto|discriminate]. Qed.
Lemma success_accepts h o c hook i s mp w' : mp (sl_name s) = None -> slot_handler h o c hook i s (mkWst [] mp) = (true, w') -> accepts h c hook i s.
Proof.
  intros M E. split.
  - intros PL CN. pose proof E as E0. apply c58_changes_indexed_ok in E; [|exact M|exact PL]. destruct E as (argv & out & HD & _ & X).
    assert (IN : exists b, In (ARun argv None out, b) (ws_tr w')).
    { assert (Y : In (ARun argv None out) (map fst (filter (fun e => modifying (fst e)) (ws_tr w')))).
      { rewrite X. apply in_map_iff. destruct h; cbn [indexed] in PL; try discriminate; cbn [changes].
        - eexists. split; [|left; reflexivity]. reflexivity.
        - eexists. split; [|left; reflexivity]. reflexivity.
        - eexists. split; [|right; left; reflexivity]. reflexivity.
        - eexists. split; [|right; left; reflexivity]. reflexivity.
        - apply andb_true_iff in PL. destruct PL as [EF _]. apply negb_true_iff in EF. rewrite EF. eexists. split; [|right; left; reflexivity]. reflexivity.
        - eexists. split; [|right; left; reflexivity]. reflexivity.
        - eexists. split; [|right; left; reflexivity]. reflexivity.
        - eexists. split; [|right; left; reflexivity]. reflexivity. }
      apply in_map_iff in Y. destruct Y as ([a b] & Y1 & Y2). cbn in Y1. subst a. apply filter_In in Y2. exists b. apply Y2. }
    destruct IN as [b IN]. apply in_split in IN. destruct IN as (t1 & t2 & T). destruct argv as [|p argv]; [destruct (wx_desync c); discriminate|]. cbn in HD.
    eapply c58_casync_ok in E0; [|exact T|destruct (wx_desync c); auto]. destruct E0 as (_ & args & target & seed & CA & _). congruence.
  - destruct h; cbn [slot_handler] in E; try exact Logic.I.
    + unfold img_to_boot_emmc in E. destruct (wx_realdev c) as [dev|]; [|discriminate]. destruct (wx_bp c) as [bp|]; [|discriminate]. split; [discriminate|].
      apply andthen_true in E. destruct E as (w1 & _ & E). apply andthen_true in E. destruct E as (w2 & _ & E).
      destruct (wx_bp_after c) as [[a|]|]; [|exists bp, None; repeat split; discriminate|discriminate]. exists bp, (Some a). split; [reflexivity|]. split; [reflexivity|].
      destruct (Nat.eqb_spec a (match bp with Some a => a | None => 1 end)); [discriminate|congruence].
    + unfold img_to_boot_switch in E. destruct (wx_part c) as [[start sz]|]; [|discriminate]. exists start, sz. split; [reflexivity|]. destruct (_ <? _)%Z eqn:L; [discriminate|]. now apply Z.ltb_ge.
    + unfold img_to_boot_switch in E. destruct (wx_part c) as [[start sz]|]; [|discriminate]. exists start, sz. split; [reflexivity|]. destruct (_ <? _)%Z eqn:L; [discriminate|]. now apply Z.ltb_ge.
    + unfold img_to_boot_raw_fallback in E. destruct (negb _) eqn:D1; [discriminate|]. destruct (negb (_ / 2 mod _ =? 0)%N) eqn:D2; [discriminate|]. destruct (_ <? _)%Z eqn:L; [discriminate|].
      apply negb_false_iff, N.eqb_eq in D1, D2. apply N.mod_divide in D1, D2; try lia. apply andthen_true in E. destruct E as (w1 & _ & E).
      split; [exact D1|]. split; [exact D2|]. split; [now apply Z.ltb_ge|]. destruct (wx_clear c); [discriminate|discriminate].
    + unfold hook_install, run_hook in E. destruct hook; [discriminate|discriminate].
Qed.
Lemma c58_preconditions_ok : forall h o c hook i s mp r w',
  mp (sl_name s) = None -> slot_handler h o c hook i s (mkWst [] mp) = (r, w') ->
  (r = true -> accepts h c hook i s) /\
  ((forall t a, o t a = true) -> accepts h c hook i s -> r = true).
Proof.
  intros h o c hook i s mp r w' M E. split; [intros ->; eapply success_accepts; eauto|]. intros H A.
  pose proof (fine_handler h o c hook i s H A (mkWst [] mp) M) as X. rewrite E in X. exact X.
Qed.
(** a boot image that does not fit is refused before anything is done *)
Lemma c58_too_large_ok : forall h o c hook i s mp r w' start sz,
  slot_handler h o c hook i s (mkWst [] mp) = (r, w') -> (0 <= im_size i < 2 ^ 64)%Z ->
  (h = H_boot_mbr_switch \/ h = H_boot_gpt_switch) /\ wx_part c = Some (start, sz) /\ (Z.of_N sz < im_size i)%Z \/
  h = H_boot_raw_fallback /\ (Z.of_N (sx_size (wx_ext c (sl_name s))) < 2 * im_size i - 1)%Z ->
  r = false /\ ws_tr w' = [].
Proof.
  intros h o c hook i s mp r w' start sz E RG C. destruct C as [([-> | ->] & PT & LT)|(-> & LT)]; cbn [slot_handler] in E.
  - unfold img_to_boot_switch in E. rewrite PT, Z.mod_small in E by exact RG. apply Z.ltb_lt in LT. rewrite LT in E. unfold refuse in E. split; [congruence|]. replace w' with (mkWst [] mp) by congruence. reflexivity.
  - unfold img_to_boot_switch in E. rewrite PT, Z.mod_small in E by exact RG. apply Z.ltb_lt in LT. rewrite LT in E. unfold refuse in E. split; [congruence|]. replace w' with (mkWst [] mp) by congruence. reflexivity.
  - unfold img_to_boot_raw_fallback in E. rewrite Z.mod_small in E by exact RG.
    assert (L : (Z.of_N (sx_size (wx_ext c (sl_name s)) / 2) < im_size i)%Z).
    { rewrite N2Z.inj_div. change (Z.of_N 2) with 2%Z. apply Z.div_lt_upper_bound; [lia|]. clear -LT. lia. }
    apply Z.ltb_lt in L. rewrite L in E. destruct (negb _); [|destruct (negb _)]; unfold refuse in E; (split; [congruence|]); replace w' with (mkWst [] mp) by congruence; reflexivity.
Qed.

(** ** write protection of eMMC boot partitions *)
Lemma c58_write_protection_ok : forall o c hook i s mp r w' t1 a b t2,
  slot_handler H_boot_emmc o c hook i s (mkWst [] mp) = (r, w') -> ws_tr w' = t1 ++ (a, b) :: t2 ->
  (* every content change happens with the protection lifted *)
  (forall d, modifies t1 a = Some d -> activates a = false -> In (AForceRo d false, true) t1) /\
  (* lifted protection is restored, whatever happens *)
  (forall d, a = AForceRo d false -> exists b', In (AForceRo d true, b') t2).
Proof.
  intros o c hook i s mp r w' t1 a b t2 E T. cbn [slot_handler] in E. unfold img_to_boot_emmc in E.
  destruct (wx_realdev c) as [dev|]. 2:{ unfold refuse in E. assert (w' = mkWst [] mp) by congruence. subst. destruct t1; discriminate. }
  destruct (wx_bp c) as [bp|]. 2:{ unfold refuse in E. assert (w' = mkWst [] mp) by congruence. subst. destruct t1; discriminate. }
  set (ina := Nat.modulo _ 2) in E. set (part := mkSlot _ _ _ _ _ _ _ _) in E. set (vars := [_; _; _]) in E. fold part in E. cbv zeta in E.
  set (d0 := sl_device part) in *.
  (* the copying *)
  assert (CP : forall w1 b1, copy_to_bootpart o (part_ctx c s) hook i (getopt (im_filename i)) part vars (mkWst [] mp) = (b1, w1) ->
    exists bo tl br, ws_tr w1 = (AForceRo d0 false, bo) :: tl ++ [(AForceRo d0 true, br)] /\
      Forall (fun e => forall t d, modifies t (fst e) = Some d -> activates (fst e) = false -> d = d0 /\ bo = true) tl /\
      Forall (fun e => forall d, fst e <> AForceRo d false) tl).
  { intros w1 b1 X. unfold copy_to_bootpart in X. fold d0 in X. unfold andthen at 1 in X.
    destruct (step o (AForceRo d0 false) (mkWst [] mp)) as [bo wo] eqn:S0. apply step_inv in S0. destruct S0 as [TO _]. cbn in TO.
    destruct bo.
    2:{ cbv beta iota in X. destruct (step o (AForceRo d0 true) wo) as [br wr] eqn:S1. apply step_inv in S1. destruct S1 as [TR _]. cbn [snd] in X. assert (w1 = wr) by congruence. subst.
        exists false, [], br. split; [rewrite TR, TO; reflexivity|]. split; constructor. }
    cbv beta iota in X. match type of X with (let (_, _) := ?m in _) = _ => destruct m as [bm wm] eqn:EM end.
    assert (R : exists tl br0, ws_tr wm = ws_tr wo ++ tl ++ br0 /\ (bm = true -> br0 = [(AForceRo d0 true, true)]) /\ (bm = false -> br0 = [] \/ br0 = [(AForceRo d0 true, false)]) /\
      Forall (fun e => forall t d, modifies t (fst e) = Some d -> activates (fst e) = false -> d = d0) tl /\
      Forall (fun e => forall d, fst e <> AForceRo d false) tl).
    { clear X. revert EM. generalize wo. clear TO wo.
      set (G := fun (tl : hist) => Forall (fun e => forall t d, modifies t (fst e) = Some d -> activates (fst e) = false -> d = d0) tl /\ Forall (fun e => forall d, fst e <> AForceRo d false) tl).
      assert (GA : forall x y, G x -> G y -> G (x ++ y)) by (intros x y [] []; split; apply Forall_app; auto).
      assert (chain : forall (m k : wprog), (forall w b w', m w = (b, w') -> exists tl, ws_tr w' = ws_tr w ++ tl /\ G tl) ->
        (forall w b w', k w = (b, w') -> exists tl br0, ws_tr w' = ws_tr w ++ tl ++ br0 /\ (b = true -> br0 = [(AForceRo d0 true, true)]) /\ (b = false -> br0 = [] \/ br0 = [(AForceRo d0 true, false)]) /\ G tl) ->
        forall w b w', (m &&> k) w = (b, w') -> exists tl br0, ws_tr w' = ws_tr w ++ tl ++ br0 /\ (b = true -> br0 = [(AForceRo d0 true, true)]) /\ (b = false -> br0 = [] \/ br0 = [(AForceRo d0 true, false)]) /\ G tl).
      { intros m k A B w bb w2 X. unfold andthen in X. destruct (m w) as [b1' w1'] eqn:E1. destruct (A _ _ _ E1) as (tl & T1 & G1). destruct b1'.
        - destruct (B _ _ _ X) as (tl2 & br0 & T2 & P1 & P2 & G2). exists (tl ++ tl2), br0. split; [rewrite T2, T1, !app_assoc; reflexivity|]. auto.
        - assert (bb = false /\ w2 = w1') as [-> ->] by (split; congruence). exists tl, []. rewrite app_nil_r. split; [exact T1|]. split; [discriminate|]. auto. }
      assert (stepG : forall a0, (forall t d, modifies t a0 = Some d -> activates a0 = false -> d = d0) -> (forall d, a0 <> AForceRo d false) ->
        forall w b w', step o a0 w = (b, w') -> exists tl, ws_tr w' = ws_tr w ++ tl /\ G tl).
      { intros a0 P1 P2 w b0 w0 X. apply step_inv in X. destruct X as [X _]. eexists. split; [exact X|]. split; constructor; [exact P1|constructor|exact P2|constructor]. }
      assert (hookG : forall en cmd w b w', when (has_hook hook en) (run_hook o (part_ctx c s) hook cmd i part vars) w = (b, w') -> exists tl, ws_tr w' = ws_tr w ++ tl /\ G tl).
      { intros en cmd w b0 w0 X. destruct (has_hook hook en) eqn:HH; cbn [when] in X.
        - destruct hook as [hk|]; [|discriminate]. unfold run_hook in X. eapply stepG; [| |exact X]; [intros; discriminate|intros ? ?; discriminate].
        - unfold skip in X. assert (w0 = w) by congruence. subst. exists []. rewrite app_nil_r. split; [reflexivity|]. split; constructor. }
      intros wo. apply chain; [intros; eapply hookG; eauto|]. apply chain; [apply stepG; [intros t d X _; cbn [modifies] in X; congruence|intros ? ?; discriminate]|].
      apply chain; [apply stepG; [intros t d X _; cbn [modifies] in X; congruence|intros ? ?; discriminate]|]. apply chain; [intros; eapply hookG; eauto|].
      intros w b0 w0 X. apply step_inv in X. destruct X as [X _]. exists [], [(AForceRo d0 true, b0)]. split; [exact X|].
      split; [intros ->; reflexivity|]. split; [intros ->; right; reflexivity|]. split; constructor. }
    destruct R as (tl & br0 & T1 & P1 & P2 & F1 & F2). rewrite TO in T1.
    assert (F1' : Forall (fun e : act * bool => forall t d, modifies t (fst e) = Some d -> activates (fst e) = false -> d = d0 /\ true = true) tl).
    { eapply Forall_impl; [|exact F1]. intros e X1 t d Y Z. split; [eapply X1; eauto|reflexivity]. }
    destruct bm.
    - assert (w1 = wm) by congruence. subst. rewrite (P1 eq_refl) in T1. exists true, tl, true. auto.
    - destruct (step o (AForceRo d0 true) wm) as [br wr] eqn:S1. apply step_inv in S1. destruct S1 as [TR _]. cbn [snd] in X. assert (w1 = wr) by congruence. subst.
      exists true, (tl ++ br0), br. split; [rewrite TR, T1; cbn [app]; rewrite <- ?app_assoc; reflexivity|].
      assert (FB : Forall (fun e : act * bool => exists b', e = (AForceRo d0 true, b')) br0) by (destruct (P2 eq_refl) as [-> | ->]; repeat constructor; eexists; reflexivity).
      split; apply Forall_app; (split; [assumption|]); (eapply Forall_impl; [|exact FB]); intros e [b' ->]; cbn; [intros t d Y; discriminate|intros d Y; discriminate]. }
  unfold andthen at 1 in E. destruct (copy_to_bootpart _ _ _ _ _ _ _ _) as [b1 w1] eqn:EC. destruct (CP _ _ eq_refl) as (bo & tl & br & TC & F1 & F2).
  assert (SH : exists e2, ws_tr w' = ws_tr w1 ++ e2 /\ Forall (fun e => exists p, fst e = ASwitchEmmc d0 p) e2 /\ (e2 <> [] -> bo = true)).
  { destruct b1.
    - unfold andthen in E. destruct (step o _ w1) as [b2 w2] eqn:E2. apply step_inv in E2. destruct E2 as [T2 _].
      assert (w' = w2). { destruct b2; [|congruence]. destruct (wx_bp_after c) as [[x|]|]; [destruct (Nat.eqb _ _)|..]; unfold refuse, skip in E; congruence. }
      subst. eexists. split; [exact T2|]. split; [constructor; [eexists; reflexivity|constructor]|]. intros _. destruct bo; [reflexivity|exfalso].
      revert EC. unfold copy_to_bootpart. fold d0. unfold andthen at 1. destruct (step o (AForceRo d0 false) (mkWst [] mp)) as [q wq] eqn:S0. apply step_inv in S0. destruct S0 as [TQ _].
      destruct q; [|destruct (step o (AForceRo d0 true) wq); discriminate]. intros EC.
      match type of EC with (let (_, _) := ?m in _) = _ => pose proof (eq_refl m) as EM; destruct m as [bm wm] eqn:EM2 end. clear EM.
      assert (PFX : exists z, ws_tr wm = ws_tr wq ++ z).
      { clear -EM2. eapply (bal_seq (sl_name part) (ws_mp wq (sl_name part))) in EM2; [destruct EM2 as (_ & ev & TT & _); eauto| | |reflexivity]; [apply bal_hook_opt|].
        repeat apply bal_seq; first [apply bal_step; inr|apply bal_hook_opt]. }
      destruct PFX as [z PZ]. destruct bm.
      + assert (w1 = wm) by congruence. subst. rewrite PZ, TQ in TC. discriminate.
      + discriminate.
    - assert (w' = w1) by congruence. subst. exists []. rewrite app_nil_r. split; [reflexivity|]. split; [constructor|congruence]. }
  destruct SH as (e2 & T2 & FS & BO). rewrite TC in T2. rewrite T2 in T. clear T2 TC EC E CP.
  destruct t1 as [|x t1].
  { cbn [app] in T. injection T as <- <- T. subst t2. split; [intros d X; discriminate|]. intros d X. assert (d = d0) by congruence. subst d. exists br.
    apply in_or_app. left. apply in_or_app. right. now left. }
  cbn [app] in T. injection T as <- T. rewrite <- app_assoc in T. apply split_in in T. destruct T as [(u & -> & ->)|(u & -> & T)].
  - apply Forall_app in F1. destruct F1 as [_ F1]. apply Forall_inv in F1. apply Forall_app in F2. destruct F2 as [_ F2]. apply Forall_inv in F2. cbn [fst] in *. split.
    + intros d X Y. destruct (F1 _ _ X Y) as [-> ->]. now left.
    + intros d X. destruct (F2 d X).
  - cbn [app] in T. destruct u as [|x u].
    + cbn [app] in T. injection T as <- <- T. split; [intros d X; discriminate|]. intros d X. discriminate.
    + cbn [app] in T. injection T as <- T. subst e2. apply Forall_app in FS. destruct FS as [_ FS]. apply Forall_inv in FS. destruct FS as [p FS]. cbn in FS. subst a.
      split; [intros d _ X; discriminate|]. intros d X. discriminate.
Qed.
