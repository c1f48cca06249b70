From Verif Require Import Base Slot Image Handlers Install InstallSpec InstallRun InstallRunSpec InstallRunExamples.
Open Scope list_scope.

(** rauc write-slot (main.c:469-571) runs the update handler and leaves the slot status alone. *)
Lemma c71_write_slot_status_refuted : exists s i d', sl_readonly s = false /\ im_digest i <> d' /\
  forall B (w : world B), status_true [s] w -> w_mem w (sl_name s) = mkStat (Some "ok"%string) (im_digest i) ->
  let w1 := replay w [EWrite (sl_device s) Torn; EWrite (sl_device s) (Whole d')] in
  ~ status_true [s] w1 /\
  (forall o, po_mounted o = false -> po_save_done o = true ->
    fst (handle_slot_plan false o w1 i s) = true /\
    w_dev (replay w1 (snd (handle_slot_plan false o w1 i s))) (sl_device s) = Whole d').
Proof.
  exists (mkSlot "fw.0" "fw" "/dev/f" "raw" None None false false),
    (mkImage "fw" None None (Some "aa"%string) 1 (Some "fw.img"%string) None false false false false [] [] []), (Some "bb"%string).
  split; [reflexivity|]. split; [discriminate|]. intros B w ST HM w1.
  assert (D : w_dev w1 "/dev/f"%string = Whole (Some "bb"%string)) by reflexivity.
  assert (HM1 : w_mem w1 "fw.0"%string = mkStat (Some "ok"%string) (Some "aa"%string)) by exact HM.
  split.
  - intros H. specialize (H _ (Some "aa"%string) (or_introl eq_refl) (or_introl HM1)). cbn [sl_device] in H. rewrite D in H. discriminate H.
  - intros o H1 H2. unfold handle_slot_plan. rewrite H1. cbn [sl_name sl_install_same]. rewrite HM1. cbn [st_status st_digest im_digest negb].
    change (opt_is (Some "ok"%string) "ok" && opt_eqb (Some "aa"%string) (Some "aa"%string)) with true. cbn [andb]. rewrite H2. split; [reflexivity|]. exact D.
Qed.
