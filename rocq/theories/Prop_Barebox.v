(** Property theorems for the barebox backend (C12). Vocabulary: BareboxSpec.v. *)
From Verif Require Import Base BaseLemmas Slot Barebox BareboxSpec BareboxProofs UbootExamples.

(** C12: a successful set-primary (one atomic barebox-state call) makes the slot
    the unique boot target; disabled slots (priority 0) stay disabled; the
    attempts of other slots and unrelated variables are unchanged. *)
Theorem C12_barebox_set_primary : forall st slots cfg s b kvs,
  bb_wf st -> unique_names slots -> unique_bootnames slots -> In s slots -> sl_bootname s = Some b ->
  (cfg < 2 ^ 31)%Z ->
  barebox_set_primary st slots cfg s b = Ok kvs ->
  let st' := bb_apply st kvs in
  barebox_get_primary st' slots = Ok s /\
  barebox_get_state st' b = Ok true /\
  bb_boots st' (targets slots) b /\
  prio_of st' b = 20%N /\ att_of st' b = (if (cfg <=? 0)%Z then 3%N else Z.to_N cfg) /\
  (forall c, In c (targets slots) -> c <> b ->
     prio_of st' c = (if (prio_of st c =? 0)%N then 0%N else 10%N) /\ att_of st' c = att_of st c) /\
  (forall k, (forall c, In c (targets slots) -> k <> ("bootstate." ++ c ++ ".priority")%string) ->
     k <> ("bootstate." ++ b ++ ".remaining_attempts")%string -> st' k = st k).
Proof. exact barebox_set_primary_ok. Qed.
Print Assumptions C12_barebox_set_primary.

(** C12: a slot marked bad is not bootable, reported bad and never primary. *)
Theorem C12_barebox_mark_bad : forall st cfg b,
  bb_wf st ->
  let st' := bb_apply st (barebox_set_state cfg b false) in
  ~ bb_ready st' b /\
  barebox_get_state st' b = Ok false /\
  (forall slots t, barebox_get_primary st' slots = Ok t -> sl_bootname t <> Some b) /\
  (forall k, k <> ("bootstate." ++ b ++ ".priority")%string ->
             k <> ("bootstate." ++ b ++ ".remaining_attempts")%string -> st' k = st k).
Proof. exact barebox_mark_bad_ok. Qed.
Print Assumptions C12_barebox_mark_bad.

(** C12: marking good restores the attempts; the slot is good iff it is not disabled. *)
Theorem C12_barebox_mark_good : forall st cfg b,
  bb_wf st -> (cfg < 2 ^ 31)%Z -> st ("bootstate." ++ b ++ ".priority")%string <> None ->
  let st' := bb_apply st (barebox_set_state cfg b true) in
  barebox_get_state st' b = Ok (0 <? prio_of st b)%N /\
  att_of st' b = (if (cfg <=? 0)%Z then 3%N else Z.to_N cfg) /\
  (forall k, k <> ("bootstate." ++ b ++ ".remaining_attempts")%string -> st' k = st k).
Proof. exact barebox_mark_good_ok. Qed.
Print Assumptions C12_barebox_mark_good.

(** C12: the reported primary is a bootable slot of maximal priority. *)
Theorem C12_barebox_get_primary : forall st slots s,
  bb_wf st -> barebox_get_primary st slots = Ok s ->
  In s slots /\ exists b, sl_bootname s = Some b /\ bb_ready st b /\
    forall c, In c (targets slots) -> bb_ready st c -> (prio_of st c <= prio_of st b)%N.
Proof. exact barebox_get_primary_ok. Qed.
Print Assumptions C12_barebox_get_primary.

(** ** Non-vacuity *)
Definition ex_bb : bbstate := fun k =>
  if String.eqb k "bootstate.A.priority" then Some 20%N else
  if String.eqb k "bootstate.A.remaining_attempts" then Some 3%N else
  if String.eqb k "bootstate.B.priority" then Some 10%N else
  if String.eqb k "bootstate.B.remaining_attempts" then Some 0%N else None.

Example ex_barebox_hyps :
  bb_wf ex_bb /\ unique_names ex_slots /\ unique_bootnames ex_slots /\ In exB ex_slots /\
  bb_boots ex_bb (targets ex_slots) "A" /\
  barebox_set_primary ex_bb ex_slots 0 exB "B" =
    Ok [("bootstate.B.priority", 20%N); ("bootstate.A.priority", 10%N); ("bootstate.B.remaining_attempts", 3%N)] /\
  barebox_get_primary ex_bb ex_slots = Ok exA.
Proof.
  split. { intros k v. unfold ex_bb. repeat (destruct (String.eqb k _); [intros H; inversion H; reflexivity|]). discriminate. }
  split; [repeat constructor; cbn; intuition discriminate|].
  split. { intros s t b Hs Ht. cbn in Hs, Ht. intuition (subst; cbn in *; congruence). }
  split; [cbn; auto|].
  split. { split; [cbn; auto|]. split; [split; reflexivity|]. intros c Hc Hne Hr. cbn in Hc.
    destruct Hc as [<-|[<-|[]]]; [|congruence]. destruct Hr as [_ Hr]. cbn in Hr. discriminate. }
  split; reflexivity.
Qed.
