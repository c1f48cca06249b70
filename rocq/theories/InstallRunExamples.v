(** Concrete A/B system with U-Boot for the non-vacuity examples of C04-C06 and C46,
    and the counterexamples. *)
From Verif Require Import Base BaseLemmas Slot Image Handlers Install InstallSpec InstallProofs
  Uboot UbootSpec InstallRun InstallRunSpec BootInst.

Definition exr_env : env := fun k =>
  if String.eqb k "BOOT_ORDER" then Some "A B" else
  if String.eqb k "BOOT_A_LEFT" then Some "3" else
  if String.eqb k "BOOT_B_LEFT" then Some "3" else None.
Definition exr_w0 : world env :=
  mkWorld (fun _ => mkStat None None) (fun _ => mkStat None None) (fun _ => Whole (Some "11")) exr_env.
Definition exr_cf := mkConf ex_tree [] None false true.
Definition exr_bk := uboot_backend true ex_tree 0 0.
Definition exr_states : states := state_from_booted ex_tree exR0.
Definition exr_checks := mkChecks (fun _ => true) (fun _ => true) (fun _ => false) (fun _ => false) (fun _ => true).
Definition exr_all := mkPout false true HOk true true.
Definition exr_rout := mkRout (fun _ => exr_all) None None true true.
Definition exr_inp (imgs : list image) := mkInputs exr_states ex_info imgs exr_checks true exr_rout.
Definition exr_both := exr_inp [ex_img "rootfs"; ex_img "appfs"].

Lemma exr_booted : determine_slot_states (fun d => d) (Some "A") ex_tree = Ok exr_states.
Proof. reflexivity. Qed.

Lemma exr_cfg : unique_names ex_tree /\ distinct_devices ex_tree /\ wf_parents ex_tree /\ unique_bootnames ex_tree.
Proof.
  repeat split; try exact ex_tree_wf.
  - repeat constructor; cbn; intuition discriminate.
  - repeat constructor; cbn; intuition discriminate.
  - intros s t b Hs Ht. cbn in Hs, Ht.
    destruct Hs as [<-|[<-|[<-|[<-|[]]]]]; destruct Ht as [<-|[<-|[<-|[<-|[]]]]]; cbn; congruence.
Qed.

(** the events of a complete installation *)
Lemma exr_trace : map (fun e => match e with EWrite d c => Some (d, c) | _ => None end)
    (snd (install exr_bk exr_cf exr_both exr_w0)) =
  [None; None; None; None; Some ("/dev/b", Torn); Some ("/dev/b", Whole (Some "00")); None; None;
   None; None; Some ("/dev/d", Torn); Some ("/dev/d", Whole (Some "00")); None; None; None; None; None].
Proof. reflexivity. Qed.

Lemma exr_boot_A e : e "BOOT_ORDER" = Some "A B" -> e "BOOT_A_LEFT" = Some "3" -> boots e "A".
Proof.
  intros H1 H2. exists [], ["B"]. unfold order_of, left_of, val_of. cbn [append]. rewrite H1, H2.
  repeat split. constructor.
Qed.

Lemma exr_safe0 : boot_safe ex_tree uboot_good uboot_cand boots exr_w0.
Proof.
  repeat split.
  - unfold uboot_good, clean_order. repeat constructor.
  - cbn. discriminate.
  - intros n _ s r _ _ _. cbn. discriminate.
  - exists "A". apply exr_boot_A; reflexivity.
Qed.

Lemma exr_proper w : (forall s, In s ex_tree -> uboot_cand (w_boot w) "A") ->
  proper uboot_cand exr_cf exr_both w.
Proof.
  intros Hc. split.
  - exists (fun d => d), "A", exR0, "A". repeat split; try reflexivity; try (left; reflexivity);
      apply (Hc exR0); left; reflexivity.
  - intros ps Hps. assert (W : written ps = [exR1; exP1]).
    { vm_compute in Hps. apply Ok_inj in Hps. subst ps. reflexivity. }
    rewrite W. intros s r Hs (Hr & Hp & Hsr) Hn. cbn [cf_slots exr_cf] in *.
    cbn in Hs, Hr.
    destruct Hs as [<-|[<-|[<-|[<-|[]]]]]; destruct Hr as [<-|[<-|[<-|[<-|[]]]]];
      cbn in Hp; try discriminate; destruct Hsr as [[E1 E2]|E1]; cbn in E1; try discriminate;
      try (exfalso; apply Hn; reflexivity);
      split; intros HH; try (intros _); cbn in HH |- *; intuition (try congruence).
  all: discriminate.
Qed.

(** a crash in the middle of the second slot, then a restart and a complete installation *)
Definition exr_w1 := restart (replay exr_w0 (firstn 11 (snd (install exr_bk exr_cf exr_both exr_w0)))).
Definition exr_w2 := replay exr_w1 (snd (install exr_bk exr_cf exr_both exr_w1)).

Lemma exr_life : proper_life uboot_cand exr_bk exr_cf exr_w0 exr_w2 /\
  w_dev exr_w1 "/dev/d" = Torn /\ w_boot exr_w1 "BOOT_ORDER" = Some "A" /\
  w_dev exr_w2 "/dev/d" = Whole (Some "00") /\ w_boot exr_w2 "BOOT_ORDER" = Some "B A".
Proof.
  split; [|repeat split; reflexivity].
  assert (C0 : uboot_cand (w_boot exr_w0) "A") by (split; [left; reflexivity|reflexivity]).
  assert (C1 : uboot_cand (w_boot exr_w1) "A") by (split; [left; reflexivity|reflexivity]).
  apply plife_install; [|apply exr_proper; auto].
  apply plife_crash; [constructor|apply exr_proper; auto].
Qed.

(** With status files inside the slots, the old "ok" may survive an interrupted write. *)
Lemma c04_per_slot_refuted :
  exists (w0 : world env) cf inp n, cf_per_slot cf = true /\ unique_names (cf_slots cf) /\
    distinct_devices (cf_slots cf) /\ wf_parents (cf_slots cf) /\
    status_true (cf_slots cf) w0 /\
    ~ status_true (cf_slots cf) (restart (replay w0 (firstn n (snd (install exr_bk cf inp w0))))).
Proof.
  exists (mkWorld (fun _ => mkStat (Some "ok") (Some "11")) (fun _ => mkStat (Some "ok") (Some "11"))
            (fun _ => Whole (Some "11")) exr_env),
         (mkConf ex_tree [] None true true), exr_both, 3.
  split; [reflexivity|]. split; [apply exr_cfg|]. split; [apply exr_cfg|]. split; [apply exr_cfg|].
  split.
  - intros s d _ [H|H]; cbn in H; inversion H; reflexivity.
  - intros H. specialize (H exR1 (Some "11") ltac:(cbn; auto) ltac:(left; reflexivity)). discriminate H.
Qed.

(** Two images without digest (install hooks without file): after the first the second is
    skipped although nothing says they are the same. *)
Lemma c06_no_digest_refuted :
  exists s i1 i2, sl_install_same s = false /\ im_digest i1 = None /\ im_digest i2 = None /\
    im_install i2 = true /\ i1 <> i2 /\
    forall B (w : world B) o,
      let w1 := replay w (snd (handle_slot_plan false exr_all w i1 s)) in
      po_mounted o = false -> po_save_done o = true ->
      fst (handle_slot_plan false exr_all w i1 s) = true /\
      fst (handle_slot_plan false o w1 i2 s) = true /\
      forall c, ~ In (EWrite (sl_device s) c) (snd (handle_slot_plan false o w1 i2 s)).
Proof.
  exists (mkSlot "fw.0" "fw" "/dev/f" "raw" None None false false),
    (mkImage "fw" None None None 0 None None false false true false [] [] []),
    (mkImage "fw" None None None 0 None None false true true false [] [] []).
  do 4 (split; [reflexivity|]). split; [discriminate|].
  intros B w o w1 Ho Hs.
  assert (M : w_mem w1 "fw.0" = mkStat (Some "ok") None).
  { unfold w1, handle_slot_plan. cbn [sl_install_same sl_name negb andb po_mounted exr_all im_digest sl_device].
    destruct (opt_is (st_status (w_mem w "fw.0")) "ok" && opt_eqb None (st_digest (w_mem w "fw.0"))); reflexivity. }
  split; [unfold handle_slot_plan; cbn; destruct (_ && _); reflexivity|].
  unfold handle_slot_plan. rewrite Ho. cbn [sl_name sl_install_same negb andb im_digest]. rewrite M, Hs.
  cbn [st_status st_digest opt_is opt_eqb String.eqb]. cbn. split; [reflexivity|].
  intros c [H|[H|[]]]; discriminate.
Qed.

(** A bundle that contains only a child slot of a bootable group does not take the group
    out of the boot order while it is written ... *)
Lemma c46_child_only_refuted :
  exists inp n, planned exr_cf inp <> Err /\
    boot_safe ex_tree uboot_good uboot_cand boots exr_w0 /\
    let w := restart (replay exr_w0 (firstn n (snd (install exr_bk exr_cf inp exr_w0)))) in
    uboot_cand (w_boot w) "B" /\ ~ intact ex_tree w "B".
Proof.
  exists (exr_inp [ex_img "appfs"]), 3. split; [vm_compute; discriminate|]. split; [exact exr_safe0|].
  cbv zeta. split; [split; [right; left; reflexivity|reflexivity]|].
  intros H. apply (H exP1 exR1); [cbn; auto 8| | |]; try reflexivity.
  split; [cbn; auto|]. split; [reflexivity|]. right. reflexivity.
Qed.

(** ... and a bundle with only the root slot, installed after an interrupted installation
    of both, activates the group with the torn child. *)
Lemma c46_root_only_refuted :
  exists inp, let r := install exr_bk exr_cf inp exr_w1 in
    fst r = Ok tt /\ boots (w_boot (replay exr_w1 (snd r))) "B" /\ ~ intact ex_tree (replay exr_w1 (snd r)) "B".
Proof.
  exists (exr_inp [ex_img "rootfs"]). cbv zeta. split; [reflexivity|]. split.
  - exists [], ["A"]. repeat split. constructor.
  - intros H. apply (H exP1 exR1); [cbn; auto 8| | |]; try reflexivity.
    split; [cbn; auto|]. split; [reflexivity|]. right. reflexivity.
Qed.
