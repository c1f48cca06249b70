(** Property theorems for the U-Boot backend (C08, C09, C10).
    Vocabulary: UbootSpec.v ([boots], [order_of], [left_of]). *)
From Verif Require Import Base BaseLemmas Slot Uboot UbootSpec UbootProofs UbootExamples.

(** C08: after all environment writes of set-primary succeeded, the slot is
    what rauc reports as primary, is reported good, is what the boot loader
    boots, and no other variable changed. *)
Theorem C08_uboot_set_primary :
  forall del e rd slots cfg s b,
    honest rd e -> unique_names slots -> unique_bootnames slots ->
    In s slots -> sl_bootname s = Some b -> clean_word b = true -> (cfg < 2 ^ 31)%Z ->
    let e' := run del e (uboot_set_primary rd slots cfg s b) in
    uboot_get_primary (fw_printenv e') slots = Ok s /\
    uboot_get_state (fw_printenv e') b = Ok true /\
    boots e' b /\
    left_of e' b = (if (cfg <=? 0)%Z then 3%N else Z.to_N cfg) /\
    (forall k, k <> "BOOT_ORDER" -> k <> ("BOOT_" ++ b ++ "_LEFT")%string -> e' k = e k).
Proof. exact uboot_set_primary_ok. Qed.
Print Assumptions C08_uboot_set_primary.

(** C08, order: the other names keep their relative order; if BOOT_ORDER could
    not be read, all configured bootnames are entered. *)
Theorem C08_uboot_set_primary_order :
  forall del e slots cfg s b,
    In s slots -> sl_bootname s = Some b -> clean_word b = true -> (cfg < 2 ^ 31)%Z ->
    e "BOOT_ORDER" <> None -> clean_order e ->
    order_of (run del e (uboot_set_primary (fw_printenv e) slots cfg s b))
    = b :: filter (fun w => negb (String.eqb w b)) (order_of e).
Proof.
  exact set_primary_order_direct.
Qed.
Print Assumptions C08_uboot_set_primary_order.

Theorem C08_uboot_set_primary_order_default :
  forall del e rd slots cfg s b,
    unique_bootnames slots -> In s slots -> sl_bootname s = Some b -> clean_word b = true ->
    rd "BOOT_ORDER" = None ->
    (forall t x, In t slots -> sl_bootname t = Some x -> clean_word x = true) ->
    order_of (run del e (uboot_set_primary rd slots cfg s b))
    = b :: flat_map (fun t => if String.eqb (sl_name t) (sl_name s) then []
                              else match sl_bootname t with Some x => [x] | None => [] end) slots.
Proof. exact uboot_set_primary_order_default_ok. Qed.
Print Assumptions C08_uboot_set_primary_order_default.

(** C08, primary query: what rauc reports as primary is what the boot loader boots,
    provided every name in BOOT_ORDER belongs to a configured slot. *)
Theorem C08_uboot_get_primary_boots :
  forall e slots s,
    (forall n, In n (order_of e) -> exists t, In t slots /\ sl_bootname t = Some n) ->
    (forall t, In t slots -> sl_bootname t <> Some "") ->
    uboot_get_primary (fw_printenv e) slots = Ok s ->
    In s slots /\ exists b, sl_bootname s = Some b /\ boots e b.
Proof. exact get_primary_boots. Qed.
Print Assumptions C08_uboot_get_primary_boots.

(** C09: after marking bad: never booted, never reported good, never primary;
    no unrelated variable is touched. *)
Theorem C09_uboot_mark_bad :
  forall del e rd cfg b,
    honest rd e -> clean_word b = true ->
    let e' := run del e (uboot_set_state rd cfg b false) in
    ~ boots e' b /\
    uboot_get_state (fw_printenv e') b <> Ok true /\
    (forall slots t, uboot_get_primary (fw_printenv e') slots = Ok t -> sl_bootname t <> Some b) /\
    (forall k, k <> "BOOT_ORDER" -> k <> ("BOOT_" ++ b ++ "_LEFT")%string -> e' k = e k).
Proof. exact uboot_mark_bad_ok. Qed.
Print Assumptions C09_uboot_mark_bad.

(** C09, order of the others *)
Theorem C09_uboot_mark_bad_order :
  forall del e rd cfg b,
    honest rd e -> clean_order e -> rd "BOOT_ORDER" <> None ->
    order_of (run del e (uboot_set_state rd cfg b false))
    = filter (fun w => negb (String.eqb w b)) (order_of e).
Proof. exact uboot_mark_bad_order_ok. Qed.
Print Assumptions C09_uboot_mark_bad_order.

(** C09, mark good: restores the counter of a slot that is still listed ... *)
Theorem C09_uboot_mark_good :
  forall del e rd cfg b,
    clean_word b = true -> (cfg < 2 ^ 31)%Z -> In b (order_of e) ->
    uboot_get_state (fw_printenv (run del e (uboot_set_state rd cfg b true))) b = Ok true /\
    (forall k, k <> ("BOOT_" ++ b ++ "_LEFT")%string ->
       run del e (uboot_set_state rd cfg b true) k = e k).
Proof. exact uboot_mark_good_ok. Qed.
Print Assumptions C09_uboot_mark_good.

(** C10: crash (or failing fw_setenv) after any number of writes of set-primary:
    the system still boots what it booted before, or the new slot. *)
Theorem C10_uboot_set_primary_crash :
  forall del e rd slots cfg s b,
    clean_word b = true -> (cfg < 2 ^ 31)%Z ->
    forall n m, boots e m ->
      let e' := run del e (firstn n (uboot_set_primary rd slots cfg s b)) in
      boots e' m \/ boots e' b.
Proof. exact uboot_set_primary_crash_ok. Qed.
Print Assumptions C10_uboot_set_primary_crash.

(** C10: crash during mark-bad of another slot never stops the booting slot from booting. *)
Theorem C10_uboot_mark_bad_crash :
  forall del e rd cfg b,
    honest rd e ->
    forall n m, clean_order e -> m <> b -> boots e m ->
      boots (run del e (firstn n (uboot_set_state rd cfg b false))) m.
Proof. exact uboot_mark_bad_crash_ok. Qed.
Print Assumptions C10_uboot_mark_bad_crash.

(** ** Non-vacuity: a concrete A/B system *)
Example ex_hyps : honest (fw_printenv ex_env) ex_env /\ unique_names ex_slots /\ unique_bootnames ex_slots /\
  In exB ex_slots /\ clean_word "B" = true /\ clean_order ex_env /\ boots ex_env "A" /\
  order_of (run true ex_env (uboot_set_primary (fw_printenv ex_env) ex_slots 0 exB "B")) = ["B"; "A"] /\
  uboot_get_primary (fw_printenv ex_env) ex_slots = Ok exA /\
  order_of (run true ex_env (uboot_set_state (fw_printenv ex_env) 0 "A" false)) = ["B"].
Proof.
  split; [exact (honest_direct ex_env)|].
  split; [repeat constructor; cbn; intuition discriminate|].
  split. { intros s t b Hs Ht. cbn in Hs, Ht. intuition (subst; cbn in *; congruence). }
  split; [cbn; auto|]. split; [reflexivity|]. split; [repeat constructor|].
  split. { exists [], ["B"]. repeat split; constructor. }
  repeat split; reflexivity.
Qed.

(** "mark good" after "mark bad" does not make the slot bootable again: the
    slot is not re-entered into BOOT_ORDER (documented limitation of the U-Boot
    backend, recorded here because C09 might suggest otherwise). *)
Theorem C09_uboot_good_undoes_bad_refuted :
  exists e b, clean_word b = true /\ boots e b /\
    let e1 := run true e (uboot_set_state (fw_printenv e) 0 b false) in
    let e2 := run true e1 (uboot_set_state (fw_printenv e1) 0 b true) in
    uboot_get_state (fw_printenv e2) b = Ok false /\ ~ boots e2 b.
Proof.
  exact uboot_good_after_bad.
Qed.
Print Assumptions C09_uboot_good_undoes_bad_refuted.
