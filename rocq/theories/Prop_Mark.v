(** Property theorems for the mark commands (C14).  Vocabulary: MarkSpec.v ([meant]). *)
From Verif Require Import Base BaseLemmas Slot Install Mark MarkSpec MarkProofs.

(** C14: whatever boot loader calls fail, exactly the slots meant by the
    identifier are touched, in the way the subcommand says. *)
Theorem C14_mark : forall ok plf st slots state id r ops,
  unique_names slots -> one_booted st slots ->
  mark_run ok plf st slots state id = (r, ops) ->
  (* never crashes *)
  r <> Abort /\
  (* every boot loader access concerns a slot that was meant (or is the documented late fallback prevention) *)
  (forall o, In o ops ->
     (meant st slots id (op_slot o) /\
        o = (if String.eqb state "active" then OpPrimary (op_slot o)
             else OpState (op_slot o) (String.eqb state "good")) /\
        (state = "good" \/ state = "bad" \/ state = "active")) \/
     (plf = true /\ state = "good" /\ id = "booted" /\
        o = OpState (op_slot o) false /\ meant st slots "other" (op_slot o))) /\
  (* a success reports and touches all of them *)
  (forall l, r = Ok l ->
     (forall s, In s l <-> meant st slots id s) /\ l <> [] /\
     (forall s, In s l -> In (if String.eqb state "active" then OpPrimary s
                              else OpState s (String.eqb state "good")) ops) /\
     (plf = true -> state = "good" -> id = "booted" ->
        forall s, meant st slots "other" s -> In (OpState s false) ops)).
Proof. exact c14_ok. Qed.
Print Assumptions C14_mark.

Theorem C14_mark_ambiguous : forall ok plf st slots state id a b,
  unique_names slots -> one_booted st slots ->
  state = "good" \/ state = "active" ->
  meant st slots id a -> meant st slots id b -> a <> b ->
  mark_run ok plf st slots state id = (Err, []).
Proof. exact c14_ambiguous_ok. Qed.
Print Assumptions C14_mark_ambiguous.

Theorem C14_mark_unknown : forall ok plf st slots state id,
  unique_names slots -> one_booted st slots ->
  (forall s, ~ meant st slots id s) ->
  mark_run ok plf st slots state id = (Err, []).
Proof. exact c14_unknown_ok. Qed.
Print Assumptions C14_mark_unknown.

Theorem C14_mark_complete : forall ok st slots state id s,
  unique_names slots -> one_booted st slots ->
  state = "good" \/ state = "bad" \/ state = "active" ->
  (id = "booted" \/ id = "other" \/ List.length (g_strsplit "." id) = 2%nat) ->
  meant st slots id s -> (forall t, meant st slots id t -> t = s) ->
  (forall tr o, ok tr o = true) ->
  exists l, fst (mark_run ok false st slots state id) = Ok l /\ In s l.
Proof. exact c14_complete_ok. Qed.
Print Assumptions C14_mark_complete.

(** ** Non-vacuity: two bootable slots next to the booted one *)
Definition mk0 := mkSlot "rootfs.0" "rootfs" "/dev/a" "ext4" (Some "A") None false true.
Definition mk1 := mkSlot "rootfs.1" "rootfs" "/dev/b" "ext4" (Some "B") None false true.
Definition mk2 := mkSlot "rootfs.2" "rootfs" "/dev/c" "ext4" (Some "C") None false true.
Definition mk3 := mkSlot "appfs.1" "appfs" "/dev/d" "ext4" None (Some "rootfs.1") false true.
Definition mk_st : states := fun n => if String.eqb n "rootfs.0" then ST_BOOTED else ST_INACTIVE.
Definition mk_all := [mk0; mk1; mk2; mk3].
Example ex_mark_hyps : unique_names mk_all /\ one_booted mk_st mk_all /\
  meant mk_st mk_all "other" mk1 /\ meant mk_st mk_all "other" mk2 /\ mk1 <> mk2 /\
  mark_run (fun _ _ => true) true mk_st mk_all "good" "booted"
    = (Ok [mk0], [OpState mk0 true; OpState mk1 false; OpState mk2 false]) /\
  mark_run (fun _ _ => true) false mk_st mk_all "active" "rootfs.1" = (Ok [mk1], [OpPrimary mk1]) /\
  mark_run (fun tr _ => Nat.ltb (List.length tr) 1) false mk_st mk_all "bad" "other"
    = (Err, [OpState mk1 false; OpState mk2 false]) /\
  (forall s, ~ meant mk_st mk_all "appfs.1" s).
Proof.
  split; [repeat constructor; cbn; intuition discriminate|].
  split. { intros a b [Ha Sa] [Hb Sb]. cbn in Ha, Hb.
           intuition (subst; cbn in *; try discriminate; reflexivity). }
  assert (B : booted mk_st mk_all mk0) by (split; [cbn; auto|reflexivity]).
  split. { right; left. repeat split; [cbn; auto|discriminate|exists mk0; repeat split; auto; [apply B|discriminate]]. }
  split. { right; left. repeat split; [cbn; auto|discriminate|exists mk0; repeat split; auto; [apply B|discriminate]]. }
  split; [discriminate|]. repeat split; try reflexivity.
  intros s [[H _]|[[H _]|(_ & _ & Hi & Hn & Hb)]]; try discriminate.
  cbn in Hi. intuition (subst; cbn in *; congruence).
Qed.
