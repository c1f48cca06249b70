(** Property theorems for the GRUB backend (C11). Vocabulary: GrubSpec.v. *)
From Verif Require Import Base BaseLemmas Slot Grub GrubSpec GrubProofs UbootExamples.

(** C11: one atomic grub-editenv call makes the slot primary and good; ORDER then
    lists every configured bootname, the slot first; other variables unchanged. *)
Theorem C11_grub_set_primary : forall e slots s b,
  wf_genv e -> unique_names slots -> unique_bootnames slots -> boot_names_ok slots ->
  In s slots -> sl_bootname s = Some b ->
  let e' := editenv_set e (grub_set_primary slots s b) in
  grub_get_primary (Some (editenv_list e')) slots = Ok s /\
  grub_get_state (Some (editenv_list e')) b = Ok true /\
  gboots e' b /\
  (exists others, gorder e' = b :: others /\
     forall x, In x others <-> (x <> b /\ exists t, In t slots /\ sl_bootname t = Some x)) /\
  (forall k, k <> "ORDER" -> k <> (b ++ "_OK")%string -> k <> (b ++ "_TRY")%string -> gvar e' k = gvar e k).
Proof. exact grub_set_primary_ok. Qed.
Print Assumptions C11_grub_set_primary.

(** C11: a slot marked bad is neither booted, nor good, nor primary; ORDER and the
    variables of other slots are unchanged. *)
Theorem C11_grub_mark_bad : forall e b,
  wf_genv e -> ok_bootname b = true ->
  let e' := editenv_set e (grub_set_state b false) in
  ~ gboots e' b /\
  grub_get_state (Some (editenv_list e')) b <> Ok true /\
  (forall slots t, boot_names_ok slots ->
     grub_get_primary (Some (editenv_list e')) slots = Ok t -> sl_bootname t <> Some b) /\
  gorder e' = gorder e /\
  (forall k, k <> (b ++ "_OK")%string -> k <> (b ++ "_TRY")%string -> gvar e' k = gvar e k).
Proof. exact grub_mark_bad_ok. Qed.
Print Assumptions C11_grub_mark_bad.

(** C11: marking a listed slot good makes it good. *)
Theorem C11_grub_mark_good : forall e b,
  wf_genv e -> ok_bootname b = true -> In b (gorder e) ->
  let e' := editenv_set e (grub_set_state b true) in
  grub_get_state (Some (editenv_list e')) b = Ok true /\ gorder e' = gorder e /\
  (forall k, k <> (b ++ "_OK")%string -> k <> (b ++ "_TRY")%string -> gvar e' k = gvar e k).
Proof. exact grub_mark_good_ok. Qed.
Print Assumptions C11_grub_mark_good.

(** C11: the reported primary is what the boot script boots. *)
Theorem C11_grub_get_primary : forall e slots s,
  wf_genv e -> boot_names_ok slots ->
  (forall n, In n (gorder e) -> exists t, In t slots /\ sl_bootname t = Some n) ->
  grub_get_primary (Some (editenv_list e)) slots = Ok s ->
  In s slots /\ exists b, sl_bootname s = Some b /\ gboots e b.
Proof. exact grub_get_primary_ok. Qed.
Print Assumptions C11_grub_get_primary.

(** ** Non-vacuity *)
Definition ex_genv : genv := [("saved_entry", "x"); ("ORDER", "A B"); ("A_OK", "1"); ("A_TRY", "0"); ("B_OK", "0"); ("B_TRY", "1")].

Example ex_grub_hyps :
  wf_genv ex_genv /\ unique_names ex_slots /\ unique_bootnames ex_slots /\ boot_names_ok ex_slots /\ In exB ex_slots /\
  gboots ex_genv "A" /\ In "B" (gorder ex_genv) /\
  editenv_set ex_genv (grub_set_primary ex_slots exB "B") =
    [("saved_entry", "x"); ("ORDER", "B A"); ("A_OK", "1"); ("A_TRY", "0"); ("B_OK", "1"); ("B_TRY", "0")] /\
  grub_get_primary (Some (editenv_list ex_genv)) ex_slots = Ok exA.
Proof.
  split; [repeat constructor|].
  split; [repeat constructor; cbn; intuition discriminate|].
  split. { intros s t b Hs Ht. cbn in Hs, Ht. intuition (subst; cbn in *; congruence). }
  split. { intros t x Ht. cbn in Ht. intuition (subst; cbn in *; congruence || (inversion H; reflexivity)). }
  split; [cbn; auto|].
  split. { exists [], ["B"]. repeat split; constructor. }
  split; [cbn; auto|]. split; reflexivity.
Qed.
