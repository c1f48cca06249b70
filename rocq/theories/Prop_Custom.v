(** C66 The custom boot loader backend: what was set is what is reported *)
From Verif Require Import Base BaseLemmas Slot Bootname Mark ContextSpec Custom CustomSpec CustomProofs CustomExamples.

(** Any program: each request runs it once with the documented arguments; only exit code 0 is a success; the
    primary slot is a configured one whose bootname was printed; everything else is an error. *)
Theorem C66_primary : forall W (run : program W) slots w w' s, custom_get_primary run slots w = (w', Ok s) ->
  exists out b, run w ["get-primary"] = (w', Ran out (Some 0)) /\ In s slots /\ sl_bootname s = Some b /\ (text_only out -> trimmed out b).
Proof. exact c66_primary_ok. Qed.
Print Assumptions C66_primary.
Theorem C66_primary_complete : forall W (run : program W) slots w w' o s b, bootnames_unique slots -> In s slots -> sl_bootname s = Some b -> b <> "" ->
  run w ["get-primary"] = (w', o) -> answers o b -> custom_get_primary run slots w = (w', Ok s).
Proof. exact c66_primary_complete_ok. Qed.
Print Assumptions C66_primary_complete.
Theorem C66_primary_error : forall W (run : program W) slots w w' o, run w ["get-primary"] = (w', o) ->
  failed o \/ (exists v, answers o v /\ v <> "" /\ forall s, In s slots -> sl_bootname s <> Some v) ->
  custom_get_primary run slots w = (w', Err).
Proof. exact c66_primary_error_ok. Qed.
Print Assumptions C66_primary_error.
Theorem C66_state : forall W (run : program W) s w w' o r, run w (match sl_bootname s with Some b => ["get-state"; b] | None => ["get-state"] end) = (w', o) ->
  custom_get_state run s w = (w', r) -> (forall out c, o = Ran out c -> text_only out) ->
  (r = Ok true <-> answers o "good") /\ (r = Ok false <-> answers o "bad").
Proof. exact c66_state_ok. Qed.
Print Assumptions C66_state.
Theorem C66_set : forall W (run : program W) s b, sl_bootname s = Some b -> forall w w' r,
  (custom_set_primary run s w = (w', r) -> exists o, run w ["set-primary"; b] = (w', o) /\ (r = true <-> exists out, o = Ran out (Some 0))) /\
  (forall g, custom_set_state run s g w = (w', r) ->
     exists o, run w ["set-state"; b; if g then "good" else "bad"] = (w', o) /\ (r = true <-> exists out, o = Ran out (Some 0))).
Proof. exact c66_set_ok. Qed.
Print Assumptions C66_set.
(** A program that follows the documentation: after any history of requests, some of which may have failed, the
    boot loader has what was last set successfully, and rauc reports it. *)
Theorem C66_history : forall W (run : program W) view ops w w' rs, conforms run view -> requests BCustom run ops w = (w', rs) ->
  List.length rs = List.length ops /\
  bv_primary (view w') = match last_primary (combine ops rs) with Some b => b | None => bv_primary (view w) end /\
  forall x, bv_good (view w') x = match last_state x (combine ops rs) with Some g => g | None => bv_good (view w) x end.
Proof. exact c66_history_ok. Qed.
Print Assumptions C66_history.
Theorem C66_report : forall W (run : program W) view ops w w' rs slots, conforms run view -> bootnames_unique slots ->
  requests BCustom run ops w = (w', rs) ->
  (forall w2 s s' b, custom_get_primary run slots w' = (w2, Ok s') -> In s slots -> sl_bootname s = Some b -> b <> "" ->
     last_primary (combine ops rs) = Some b -> s' = s) /\
  (forall w2 s b g r, sl_bootname s = Some b -> custom_get_state run s w' = (w2, Ok r) ->
     last_state b (combine ops rs) = Some g -> r = g).
Proof. exact c66_report_ok. Qed.
Print Assumptions C66_report.
(** The booted slot: the first line, unchanged. *)
Theorem C66_current : forall W (run : program W) w w' v, custom_get_current run w = (w', Ok v) ->
  v <> "" /\ exists out, run w ["get-current"] = (w', Ran out (Some 0)) /\ (text_only out -> exists rest, out = v \/ out = (v ++ String "010" rest)%string).
Proof. exact c66_current_ok. Qed.
Print Assumptions C66_current.
Theorem C66_current_blank_refuted : exists (run : program unit) slots s,
  In s slots /\ sl_bootname s = Some "A" /\ bootnames_unique slots /\
  snd (run tt ["get-primary"]) = snd (run tt ["get-current"]) /\ answers (snd (run tt ["get-current"])) "A" /\
  custom_get_primary run slots tt = (tt, Ok s) /\
  exists v, custom_get_current run tt = (tt, Ok v) /\ forall t, In t slots -> sl_bootname t <> Some v.
Proof. exact c66_current_blank_refuted. Qed.
Print Assumptions C66_current_blank_refuted.
(** "noop" accepts everything and does nothing. *)
Theorem C66_noop : forall W (run : program W) op w slots s,
  boot_set BNoop run op w = (w, true) /\ boot_get_primary BNoop run slots w = (w, Err) /\ boot_get_state BNoop run s w = (w, Err) /\
  boot_set BUnknown run op w = (w, false).
Proof. exact c66_noop_ok. Qed.
Print Assumptions C66_noop.

Example ex_history :
  let w := mkView "A" (fun _ => false) in
  let '(w', rs) := requests BCustom ex_run [OpState exB false; OpPrimary exB; OpState exB true; OpPrimary exC] w in
  rs = [true; true; true; false] /\ last_primary (combine [OpState exB false; OpPrimary exB; OpState exB true; OpPrimary exC] rs) = Some "B" /\
  snd (custom_get_primary ex_run [exA; exB; exC] w') = Ok exB /\ snd (custom_get_state ex_run exB w') = Ok true /\ snd (custom_get_state ex_run exA w') = Ok false.
Proof. vm_compute. repeat split. Qed.
Example ex_meets : conforms ex_run (fun w => w) /\ bootnames_unique [exA; exB; exC].
Proof. split; [exact ex_conforms | exact ex_unique]. Qed.
Example ex_current : custom_get_current (fun w _ => (w, Ran ("A" ++ nl ++ "x") (Some 0))) tt = (tt, Ok "A").
Proof. reflexivity. Qed.
