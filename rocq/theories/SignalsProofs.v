(** Proofs for C83. *)
From Verif Require Import Base BaseLemmas Signals SignalsSpec.
Open Scope list_scope.

Lemma prog_eqb_spec a b : prog_eqb a b = true <-> a = b.
Proof.
  unfold prog_eqb. destruct a as [n s], b as [n' s']. cbn [fst snd]. rewrite andb_true_iff, Nat.eqb_eq, String.eqb_eq. split.
  - intros [-> ->]. reflexivity.
  - intros H. apply pair_equal_spec in H. exact H.
Qed.
Definition dflt {A} (o : option A) (v : A) : A := match o with Some x => x | None => v end.

(** the views *)
Definition V (s : st) : Prop :=
  seen_op (s_wire s) = dflt (o_op (s_orig s)) (p_op (s_props s)) /\ seen_err (s_wire s) = dflt (o_err (s_orig s)) (p_err (s_props s)) /\
  seen_prog (s_wire s) = dflt (o_prog (s_orig s)) (p_prog (s_props s)).
(** changes are going to be sent *)
Definition Q (s : st) : Prop := (has_orig (s_orig s) = true -> s_idle s = true) /\ (s_idle s = true -> In SEmit (s_queue s)).
Definition dones (s : st) : Prop := exists r, In (SDone r) (s_queue s).
Definition D (s : st) : Prop := forall a r b, s_queue s = a ++ SDone r :: b -> o_err (s_orig s) <> None -> In SEmit a.

Lemma differs_none {A} eqb (o : option A) v : (forall a b, eqb a b = true <-> a = b) -> differs eqb o v = None -> dflt o v = v.
Proof. intros E. destruct o as [x|]; cbn; [|reflexivity]. destruct (eqb x v) eqn:X; [intros _; now apply E|discriminate]. Qed.
Lemma differs_some {A} eqb (o : option A) v y : differs eqb o v = Some y -> y = v.
Proof. destruct o as [x|]; cbn; [destruct (eqb x v)|]; congruence. Qed.

Lemma flush_V s : V s -> V (flush s).
Proof.
  destruct s as [[op e g] [oo oe og] i b t q w]. intros (V1 & V2 & V3). unfold V, flush, changes, seen_op, seen_err, seen_prog in *. cbn [s_wire s_orig s_props o_op o_err o_prog p_op p_err p_prog no_orig dflt] in *.
  pose proof (@differs_none _ Bool.eqb oo op eqb_true_iff) as N1. pose proof (@differs_none _ String.eqb oe e String.eqb_eq) as N2. pose proof (@differs_none _ prog_eqb og g prog_eqb_spec) as N3.
  pose proof (@differs_some _ Bool.eqb oo op) as S1. pose proof (@differs_some _ String.eqb oe e) as S2. pose proof (@differs_some _ prog_eqb og g) as S3.
  destruct (differs Bool.eqb oo op) as [x|], (differs String.eqb oe e) as [y|], (differs prog_eqb og g) as [z|];
    rewrite ?fold_left_app; cbn [fold_left]; rewrite ?V1, ?V2, ?V3, ?app_nil_r;
    repeat match goal with
    | H : forall y, Some ?x = Some y -> _ |- _ => specialize (H x eq_refl)
    | H : None = None -> _ |- _ => specialize (H eq_refl)
    | H : forall y, None = Some y -> _ |- _ => clear H
    | H : Some _ = None -> _ |- _ => clear H
    end; auto.
Qed.
Lemma flush_Q s : Q (flush s). Proof. split; cbn; discriminate. Qed.
Lemma flush_D s : D (flush s). Proof. intros a r b _ H. now destruct H. Qed.

Lemma notify_V s : V s -> V (notify s).
Proof. unfold notify. destruct (has_orig _ && _); auto. Qed.
Lemma notify_Q s : (s_idle s = true -> In SEmit (s_queue s)) -> Q (notify s).
Proof.
  intros H. unfold notify, Q. destruct (has_orig (s_orig s)) eqn:E; cbn [andb]; [|rewrite E; split; [discriminate|exact H]].
  destruct (s_idle s) eqn:I1; cbn [negb]; cbn [s_idle s_queue s_orig].
  - rewrite I1. auto.
  - split; auto. intros _. apply in_or_app. right. now left.
Qed.
Lemma notify_queue s : s_queue (notify s) = s_queue s \/ s_queue (notify s) = s_queue s ++ [SEmit].
Proof. unfold notify. destruct (_ && _); auto. Qed.
Lemma notify_D s : D s -> D (notify s).
Proof.
  intros H a r b E N. assert (O : s_orig (notify s) = s_orig s) by (unfold notify; destruct (_ && _); reflexivity). rewrite O in N.
  destruct (notify_queue s) as [E'|E']; rewrite E' in E; [eapply H; eassumption|].
  destruct (exists_last (l := SDone r :: b)) as (b' & x & EB); [discriminate|]. rewrite EB, app_assoc in E. apply app_inj_tail in E as [E <-].
  destruct b' as [|y b'].
  - cbn in EB. discriminate.
  - cbn in EB. injection EB as <- ->. eapply H; eassumption.
Qed.
Lemma notify_none s r : (forall r, ~ In (SDone r) (s_queue s)) -> ~ In (SDone r) (s_queue (notify s)).
Proof. intros H. destruct (notify_queue s) as [->| ->]; [apply H|]. intros K. apply in_app_or in K as [K|[K|[]]]; [now apply H in K|discriminate]. Qed.

(** what the primitives leave alone *)
Lemma notify_rest s : s_props (notify s) = s_props s /\ s_orig (notify s) = s_orig s /\ s_busy (notify s) = s_busy s /\ s_thread (notify s) = s_thread s /\ s_wire (notify s) = s_wire s.
Proof. unfold notify. destruct (_ && _); auto. Qed.

Ltac vsplit := unfold V in *; cbn [s_wire s_orig s_props o_op o_err o_prog p_op p_err p_prog] in *.
Lemma set_op_inv b s : V s -> Q s -> D s -> V (set_op b s) /\ Q (set_op b s) /\ D (set_op b s).
Proof.
  intros HV (Q1 & Q2) HD. unfold set_op. destruct (Bool.eqb b (p_op (s_props s))); [split; [exact HV|split; [split; assumption|exact HD]]|].
  split; [|split].
  - apply notify_V. vsplit. destruct HV as (V1 & V2 & V3). rewrite V1, V2, V3. destruct (o_op (s_orig s)); cbn [keep dflt]; auto.
  - apply notify_Q. exact Q2.
  - apply notify_D. exact HD.
Qed.
Lemma set_prog_inv g s : V s -> Q s -> D s -> V (set_prog g s) /\ Q (set_prog g s) /\ D (set_prog g s).
Proof.
  intros HV (Q1 & Q2) HD. unfold set_prog. destruct (prog_eqb g (p_prog (s_props s))); [split; [exact HV|split; [split; assumption|exact HD]]|].
  split; [|split].
  - apply notify_V. vsplit. destruct HV as (V1 & V2 & V3). rewrite V1, V2, V3. destruct (o_prog (s_orig s)); cbn [keep dflt]; auto.
  - apply notify_Q. exact Q2.
  - apply notify_D. exact HD.
Qed.
Lemma set_err_inv m s : (forall r, ~ In (SDone r) (s_queue s)) -> V s -> Q s -> V (set_err m s) /\ Q (set_err m s) /\ forall r, ~ In (SDone r) (s_queue (set_err m s)).
Proof.
  intros HN HV (Q1 & Q2). unfold set_err. destruct (String.eqb m (p_err (s_props s))); [split; [exact HV|split; [split; assumption|exact HN]]|].
  split; [|split].
  - apply notify_V. vsplit. destruct HV as (V1 & V2 & V3). rewrite V1, V2, V3. destruct (o_err (s_orig s)); cbn [keep dflt]; auto.
  - apply notify_Q. exact Q2.
  - intros r. now apply notify_none.
Qed.
Lemma none_D s : (forall r, ~ In (SDone r) (s_queue s)) -> D s.
Proof. intros H a r b E. exfalso. apply (H r). rewrite E. apply in_or_app. right. now left. Qed.

Lemma set_op_rest b s : p_op (s_props (set_op b s)) = b /\ p_err (s_props (set_op b s)) = p_err (s_props s) /\ o_err (s_orig (set_op b s)) = o_err (s_orig s) /\
  s_busy (set_op b s) = s_busy s /\ s_thread (set_op b s) = s_thread s /\ s_wire (set_op b s) = s_wire s /\ (forall r, In (SDone r) (s_queue (set_op b s)) <-> In (SDone r) (s_queue s)).
Proof.
  unfold set_op. destruct (Bool.eqb b (p_op (s_props s))) eqn:E; [apply eqb_prop in E; split; [now symmetry|]; repeat split; auto|].
  match goal with |- context [notify ?x] => set (n := x) end. destruct (notify_rest n) as (-> & -> & -> & -> & ->). unfold n at 1 2 3 4 5 6. cbn [s_props s_orig s_busy s_thread s_wire p_op p_err o_err].
  do 6 (split; [reflexivity|]). intros r. destruct (notify_queue n) as [->| ->]; unfold n; cbn [s_queue]; [tauto|]. rewrite in_app_iff. cbn. intuition discriminate.
Qed.
Lemma set_prog_rest g s : p_op (s_props (set_prog g s)) = p_op (s_props s) /\ p_err (s_props (set_prog g s)) = p_err (s_props s) /\ p_prog (s_props (set_prog g s)) = g /\
  s_busy (set_prog g s) = s_busy s /\ s_thread (set_prog g s) = s_thread s /\ s_wire (set_prog g s) = s_wire s /\ (forall r, In (SDone r) (s_queue (set_prog g s)) <-> In (SDone r) (s_queue s)).
Proof.
  unfold set_prog. destruct (prog_eqb g (p_prog (s_props s))) eqn:E; [apply prog_eqb_spec in E; repeat split; auto|].
  match goal with |- context [notify ?x] => set (n := x) end. destruct (notify_rest n) as (-> & _ & -> & -> & ->). unfold n at 1 2 3 4 5 6. cbn [s_props s_busy s_thread s_wire p_op p_err p_prog].
  do 6 (split; [reflexivity|]). intros r. destruct (notify_queue n) as [->| ->]; unfold n; cbn [s_queue]; [tauto|]. rewrite in_app_iff. cbn. intuition discriminate.
Qed.
Lemma set_err_rest m s : p_op (s_props (set_err m s)) = p_op (s_props s) /\ p_err (s_props (set_err m s)) = m /\
  s_busy (set_err m s) = s_busy s /\ s_thread (set_err m s) = s_thread s /\ s_wire (set_err m s) = s_wire s.
Proof.
  unfold set_err. destruct (String.eqb m (p_err (s_props s))) eqn:E; [apply String.eqb_eq in E; repeat split; auto|].
  match goal with |- context [notify ?x] => set (n := x) end. destruct (notify_rest n) as (-> & _ & -> & -> & ->). repeat split; reflexivity.
Qed.

(** the phases *)
Definition P (s : st) : Prop :=
  (forall ph, s_thread s = Some ph -> s_busy s = true /\ (forall r, ~ In (SDone r) (s_queue s)) /\
     match ph with PStart => True | PWork _ | PFlush => p_err (s_props s) = ""%string | PEnd r => p_err (s_props s) = message r end) /\
  (forall r, In (SDone r) (s_queue s) -> s_busy s = true /\ p_err (s_props s) = message r) /\
  (forall a r b, s_queue s = a ++ SDone r :: b -> forall r', ~ In (SDone r') b) /\
  (s_busy s = true -> s_thread s <> None \/ dones s) /\
  (s_busy s = false -> p_err (s_props s) = match last_result (s_wire s) with Some r => message r | None => ""%string end).
(** every Completed so far *)
Definition C (s : st) : Prop := forall a r c, s_wire s = a ++ WCompleted r :: c -> seen_err a = message r.
Definition Inv (s : st) : Prop := V s /\ Q s /\ D s /\ P s /\ C s.

Lemma C_app s w l : s_wire s = w ++ l -> (forall a r c, w = a ++ WCompleted r :: c -> seen_err a = message r) -> (forall r, ~ In (WCompleted r) l) -> C s.
Proof.
  intros E H N a r c E'. rewrite E in E'. apply app_eq_app in E' as (k & [(-> & E2)|(-> & E2)]).
  - destruct k as [|x k]; [cbn in E2; subst l; exfalso; apply (N r); now left|]. cbn in E2. injection E2 as <- ->. apply (H a r k). reflexivity.
  - exfalso. apply (N r). rewrite E2. apply in_or_app. right. now left.
Qed.
Lemma changes_not o p w : In w (changes o p) -> exists a b c, w = WChanged a b c.
Proof. unfold changes. destruct (differs _ (o_op o) _), (differs _ (o_err o) _), (differs _ (o_prog o) _); cbn [In]; intros K; try contradiction; destruct K as [<-|[]]; eauto. Qed.
Lemma changes_result w o p : last_result (w ++ changes o p) = last_result w.
Proof.
  unfold last_result. rewrite fold_left_app. unfold changes.
  destruct (differs _ (o_op o) _), (differs _ (o_err o) _), (differs _ (o_prog o) _); reflexivity.
Qed.
Lemma C_same s s' : s_wire s' = s_wire s -> C s -> C s'.
Proof. unfold C. now intros ->. Qed.
Lemma C_flush s : C s -> C (flush s).
Proof. intros H. eapply C_app; [reflexivity|exact H|]. intros r K. apply changes_not in K as (? & ? & ? & K). discriminate. Qed.
Lemma V_same s s' : s_wire s' = s_wire s -> s_orig s' = s_orig s -> s_props s' = s_props s -> V s -> V s'.
Proof. unfold V. now intros -> -> ->. Qed.
Lemma V_send w s : match w with WChanged _ _ _ => False | _ => True end -> V s -> V (send w s).
Proof. unfold V, send, seen_op, seen_err, seen_prog. cbn [s_wire s_orig s_props]. rewrite !fold_left_app. destruct w; cbn; tauto. Qed.
Lemma C_send w s : match w with WCompleted _ => False | _ => True end -> C s -> C (send w s).
Proof. intros HW H. eapply C_app; [reflexivity|exact H|]. intros r [K|[]]. subst w. exact HW. Qed.

Lemma queue_tl_D s q x : D s -> s_queue s = x :: q -> x <> SEmit -> D (mkSt (s_props s) (s_orig s) (s_idle s) (s_busy s) (s_thread s) q (s_wire s)).
Proof. intros H E N a r b E' O. cbn [s_queue s_orig] in *. subst q. destruct (H (x :: a) r b E O) as [K|K]; [congruence|exact K]. Qed.

Lemma Inv_init : Inv st0.
Proof.
  split; [repeat split|]. split; [split; discriminate|]. split; [intros a r b E; destruct a; discriminate|]. split.
  - split; [discriminate|]. split; [intros r []|]. split; [intros a r b E; destruct a; discriminate|]. split; [discriminate|]. reflexivity.
  - intros a r c E. destruct a; discriminate.
Qed.

Lemma in_split_done s r : In (SDone r) (s_queue s) -> exists a b, s_queue s = a ++ SDone r :: b.
Proof. apply in_split. Qed.
Lemma set_op_after b s : (forall a r c, s_queue s = a ++ SDone r :: c -> forall r', ~ In (SDone r') c) ->
  forall a r c, s_queue (set_op b s) = a ++ SDone r :: c -> forall r', ~ In (SDone r') c.
Proof.
  intros H. unfold set_op. destruct (Bool.eqb b (p_op (s_props s))); [exact H|].
  match goal with |- context [notify ?x] => set (n := x) end. intros a r c E r' K. destruct (notify_queue n) as [E'|E']; rewrite E' in E; unfold n in E; cbn [s_queue] in E; [eapply H; eassumption|].
  destruct (exists_last (l := SDone r :: c)) as (b' & x & EB); [discriminate|]. rewrite EB, app_assoc in E. apply app_inj_tail in E as [E <-].
  destruct b' as [|y b']; [discriminate|]. cbn in EB. injection EB as <- ->. apply in_app_or in K as [K|[K|[]]]; [|discriminate]. eapply H; eassumption.
Qed.

Lemma step_inv s e : Inv s -> Inv (step s e).
Proof.
  intros (HV & HQ & HD & HP & HC). destruct e as [bad| |x| ]; cbn [step].
  - (* InstallBundle *) unfold install_bundle. destruct (s_busy s || bad) eqn:B.
    + destruct (set_op_inv false s HV HQ HD) as (V' & Q' & D'). destruct (set_op_rest false s) as (R1 & R2 & R3 & R4 & R5 & R6 & R7).
      split; [now apply V_send|]. split; [exact Q'|]. split; [exact D'|]. split; [|apply C_send; [exact I|]; now apply (C_same s)].
      destruct HP as (P1 & P2 & P3 & P4 & P5). unfold P, dones, send. cbn [s_thread s_busy s_queue s_props s_wire]. rewrite R2, R4, R5, R6.
      split; [intros ph H; destruct (P1 ph H) as (A & B' & A'); split; [exact A|]; split; [intros r K; apply R7 in K; now apply B' in K|exact A']|].
      split; [intros r K; apply R7 in K; now apply P2|]. split; [now apply set_op_after|]. split.
      * intros H. destruct (P4 H) as [K|(r & K)]; [now left|right; exists r; now apply R7].
      * intros H. rewrite (P5 H). unfold last_result. now rewrite fold_left_app.
    + apply orb_false_iff in B as [B ->].
      destruct (set_op_inv true s HV HQ HD) as (V' & Q' & D'). destruct (set_op_rest true s) as (R1 & R2 & R3 & R4 & R5 & R6 & R7).
      destruct HP as (P1 & P2 & P3 & P4 & P5).
      assert (ND : forall r, ~ In (SDone r) (s_queue s)) by (intros r K; destruct (P2 r K); congruence).
      unfold install_run. split; [apply V_send; [exact I|]; eapply V_same; [| | |apply flush_V, V']; reflexivity|].
      split; [split; cbn; discriminate|]. split; [intros a r b E K; now destruct K|]. split.
      * unfold P, dones. cbn [s_thread s_busy s_queue s_props s_wire send set_thread set_busy flush].
        split; [intros ph H; apply Some_inj in H; subst ph; split; [reflexivity|]; split; [intros r K; apply R7 in K; now apply ND in K|exact I]|].
        split; [intros r K; apply R7 in K; now apply ND in K|]. split; [intros a r b E; exfalso; apply (ND r); apply R7; rewrite E; apply in_or_app; right; now left|].
        split; [intros _; left; discriminate|discriminate].
      * apply C_send; [exact I|]. eapply C_same; [|apply C_flush, (C_same s); [exact R6|exact HC]]. reflexivity.
  - (* polling *) unfold poll_install. destruct (s_busy s) eqn:B; [repeat (split; [assumption|]); assumption|].
    destruct (set_op_inv true s HV HQ HD) as (V' & Q' & D'). destruct (set_op_rest true s) as (R1 & R2 & R3 & R4 & R5 & R6 & R7).
    destruct HP as (P1 & P2 & P3 & P4 & P5).
    assert (ND : forall r, ~ In (SDone r) (s_queue s)) by (intros r K; destruct (P2 r K); congruence).
    unfold install_run. split; [apply V_send; [exact I|]; eapply V_same; [| | |exact V']; reflexivity|].
    split; [exact Q'|]. split; [exact D'|]. split.
    * unfold P, dones. cbn [s_thread s_busy s_queue s_props s_wire send set_thread set_busy].
      split; [intros ph H; apply Some_inj in H; subst ph; split; [reflexivity|]; split; [intros r K; apply R7 in K; now apply ND in K|exact I]|].
      split; [intros r K; apply R7 in K; now apply ND in K|]. split; [intros a r b E; exfalso; apply (ND r); apply R7; rewrite E; apply in_or_app; right; now left|].
      split; [intros _; left; discriminate|discriminate].
    * apply C_send; [exact I|]. eapply C_same; [|exact HC]. exact R6.
  - (* thread *) unfold thread_step. destruct (s_thread s) as [ph|] eqn:TH; [|repeat (split; [assumption|]); assumption].
    destruct HP as (P1 & P2 & P3 & P4 & P5). destruct (P1 ph TH) as (B & ND & PE).
    assert (WORK : forall t s', s_thread s' = Some t -> s_busy s' = true -> (forall r, ~ In (SDone r) (s_queue s')) ->
      match t with PStart => True | PWork _ | PFlush => p_err (s_props s') = ""%string | PEnd r => p_err (s_props s') = message r end -> P s').
    { intros t s' E1 E2 E3 E4. split; [intros ph' K; rewrite E1 in K; apply Some_inj in K; subst ph'; auto|]. split; [intros r K; now apply E3 in K|].
      split; [intros a r b E; exfalso; apply (E3 r); rewrite E; apply in_or_app; right; now left|]. split; [intros _; left; congruence|congruence]. }
    destruct ph as [| bg | |r].
    + destruct (set_err_inv "" s ND HV HQ) as (V' & Q' & N'). destruct (set_err_rest "" s) as (R1 & R2 & R3 & R4 & R5).
      split; [exact V'|]. split; [exact Q'|]. split; [now apply none_D|]. split; [|apply (C_same s); assumption].
      apply (WORK (PWork false)); cbn [set_thread s_thread s_busy s_queue s_props]; auto. now rewrite R3.
    + destruct x as [g|r].
      * assert (G : Inv (if p_op (s_props s) then set_thread (Some PFlush) (set_prog g s) else set_thread (Some (PWork true)) s)); [|destruct bg; exact G].
        destruct (p_op (s_props s)) eqn:OP.
        -- destruct (set_prog_inv g s HV HQ HD) as (V' & Q' & D'). destruct (set_prog_rest g s) as (R1 & R2 & R3 & R4 & R5 & R6 & R7).
           assert (N' : forall r, ~ In (SDone r) (s_queue (set_prog g s))) by (intros r K; apply R7 in K; now apply ND in K).
           split; [exact V'|]. split; [exact Q'|]. split; [exact D'|]. split; [|apply (C_same s); assumption].
           apply (WORK PFlush); cbn [set_thread s_thread s_busy s_queue s_props]; auto; [now rewrite R4|now rewrite R2].
        -- split; [exact HV|]. split; [exact HQ|]. split; [exact HD|]. split; [|exact HC]. apply (WORK (PWork true)); cbn [set_thread s_thread s_busy s_queue s_props]; auto.
      * destruct bg; [|repeat (split; [assumption|]); split; [|assumption]; repeat (split; [assumption|]); assumption].
        destruct r as [m|].
        -- destruct (set_err_inv m s ND HV HQ) as (V' & Q' & N'). destruct (set_err_rest m s) as (R1 & R2 & R3 & R4 & R5).
           split; [exact V'|]. split; [exact Q'|]. split; [now apply none_D|]. split; [|apply (C_same s); assumption].
           apply (WORK (PEnd (Some m))); cbn [set_thread s_thread s_busy s_queue s_props message]; auto. now rewrite R3.
        -- split; [exact HV|]. split; [exact HQ|]. split; [exact HD|]. split; [|exact HC]. apply (WORK (PEnd None)); cbn [set_thread s_thread s_busy s_queue s_props message]; auto.
    + split; [now apply flush_V|]. split; [apply flush_Q|]. split; [apply flush_D|]. split; [|now apply C_flush].
      destruct x; apply (WORK (PWork true)); cbn [flush set_thread s_thread s_busy s_queue s_props]; auto.
    + assert (G : Inv (set_thread None (attach (SDone r) s))).
      { split; [exact HV|]. split; [split; [apply HQ|]; intros K; apply in_or_app; left; now apply HQ|]. split; [|split; [|exact HC]].
        - intros a r' b E O. cbn [set_thread attach s_queue s_orig] in E, O. destruct (exists_last (l := SDone r' :: b)) as (b' & y & EB); [discriminate|]. rewrite EB, app_assoc in E. apply app_inj_tail in E as [E <-].
          destruct b' as [|z b'].
          + rewrite app_nil_r in E. subst a. apply HQ, HQ. unfold has_orig. destruct (o_op (s_orig s)); [reflexivity|]. destruct (o_err (s_orig s)); [reflexivity|now destruct O].
          + cbn in EB. injection EB as <- _. exfalso. apply (ND r'). rewrite E. apply in_or_app. right. now left.
        - split; [discriminate|]. cbn [set_thread attach s_thread s_busy s_queue s_props s_wire]. split; [|split; [|split]].
          + intros r' K. apply in_app_or in K as [K|[K|[]]]; [now apply ND in K|]. injection K as <-. auto.
          + intros a r' b E r2 K. destruct (exists_last (l := SDone r' :: b)) as (b' & y & EB); [discriminate|]. rewrite EB, app_assoc in E. apply app_inj_tail in E as [E <-].
            destruct b' as [|z b']; [cbn in EB; injection EB as _ ->; destruct K|]. cbn in EB. injection EB as <- _. apply (ND r'). rewrite E. apply in_or_app. right. now left.
          + intros _. right. exists r. apply in_or_app. right. now left.
          + congruence. }
      destruct x; exact G.
  - (* main loop *) unfold loop. destruct (s_queue s) as [|y q] eqn:EQ; [repeat (split; [assumption|]); assumption|].
    destruct HP as (P1 & P2 & P3 & P4 & P5). destruct y as [|r].
    + set (s1 := mkSt (s_props s) (s_orig s) (s_idle s) (s_busy s) (s_thread s) q (s_wire s)).
      split; [now apply flush_V|]. split; [apply flush_Q|]. split; [apply flush_D|]. split; [|now apply C_flush].
      unfold P, dones, flush, s1. cbn [s_thread s_busy s_queue s_props s_wire s_orig].
      split; [intros ph H; destruct (P1 ph H) as (A & B & A'); split; [exact A|]; split; [intros r K; apply (B r); rewrite EQ; now right|exact A']|].
      split; [intros r K; apply P2; rewrite EQ; now right|]. split; [intros a r b E; apply (P3 (SEmit :: a) r b); rewrite EQ, E; reflexivity|].
      split; [|intros H; rewrite changes_result; now apply P5].
      intros H. destruct (P4 H) as [K|(r & K)]; [now left|right; exists r; rewrite EQ in K; destruct K as [K|K]; [discriminate|exact K]].
    + destruct (P2 r ltac:(rewrite EQ; now left)) as (B & PE).
      assert (NT : s_thread s = None). { destruct (s_thread s) as [ph|] eqn:T; [|reflexivity]. destruct (P1 ph eq_refl) as (_ & ND & _). exfalso. apply (ND r). rewrite EQ. now left. }
      assert (OE : o_err (s_orig s) = None). { destruct (o_err (s_orig s)) eqn:O; [|reflexivity]. destruct (HD [] r q EQ). congruence. }
      assert (NQ : forall r', ~ In (SDone r') q) by (intros r'; apply (P3 [] r q EQ)).
      unfold done. set (s1 := send (WCompleted r) (mkSt (s_props s) (s_orig s) (s_idle s) (s_busy s) (s_thread s) q (s_wire s))).
      assert (V1 : V s1) by (apply V_send; [exact I|]; eapply V_same; [| | |exact HV]; reflexivity).
      destruct (set_op_rest false s1) as (R1 & R2 & R3 & R4 & R5 & R6 & R7).
      assert (V2 : V (set_op false s1)).
      { unfold set_op. destruct (Bool.eqb false (p_op (s_props s1))); [exact V1|]. apply notify_V. vsplit. destruct V1 as (W1 & W2 & W3). rewrite W1, W2, W3. destruct (o_op (s_orig s1)); cbn [keep dflt]; auto. }
      split; [eapply V_same; [| | |apply flush_V, V2]; reflexivity|]. split; [split; cbn; discriminate|]. split; [intros a r' b E K; now destruct K|]. split.
      * unfold P, dones. cbn [set_busy flush s_thread s_busy s_queue s_props s_wire s_orig]. rewrite R2, R5, R6.
        split; [intros ph H; unfold s1 in H; cbn in H; congruence|]. split; [intros r' K; apply R7 in K; unfold s1 in K; cbn in K; now apply NQ in K|].
        split; [intros a r' b E; exfalso; apply (NQ r'); change q with (s_queue s1); apply R7; rewrite E; apply in_or_app; right; now left|].
        split; [discriminate|]. intros _. rewrite changes_result. unfold s1. cbn [send s_wire s_props]. unfold last_result. rewrite fold_left_app. cbn [fold_left]. exact PE.
      * eapply C_same; [|apply C_flush with (s := set_op false s1)]; [reflexivity|]. eapply C_same; [exact R6|]. unfold s1.
        intros a r' c E. cbn [send s_wire] in E. destruct (exists_last (l := WCompleted r' :: c)) as (b' & y & EB); [discriminate|]. rewrite EB, app_assoc in E. apply app_inj_tail in E as [E <-].
        destruct b' as [|z b'].
        -- cbn in EB. injection EB as -> _. rewrite app_nil_r in E. subst a. destruct HV as (_ & -> & _). rewrite OE. exact PE.
        -- cbn in EB. injection EB as <- _. exact (HC a r' b' E).
Qed.
Lemma run_inv h : Inv (run h).
Proof.
  unfold run. assert (G : forall h s, Inv s -> Inv (fold_left step h s)); [|apply G, Inv_init].
  clear h. induction h as [|e h IH]; intros s HS; [exact HS|]. cbn [fold_left]. now apply IH, step_inv.
Qed.

(** ** results *)
Lemma c83_completed_ok : forall h a r c, s_wire (run h) = a ++ WCompleted r :: c -> seen_err a = message r.
Proof. intros h. destruct (run_inv h) as (_ & _ & _ & _ & H). exact H. Qed.
Lemma c83_property_ok : forall h, s_busy (run h) = false ->
  p_err (s_props (run h)) = match last_result (s_wire (run h)) with Some r => message r | None => ""%string end.
Proof. intros h. destruct (run_inv h) as (_ & _ & _ & (_ & _ & _ & _ & H) & _). exact H. Qed.
Lemma c83_quiet_ok : forall h, s_queue (run h) = [] ->
  seen_op (s_wire (run h)) = p_op (s_props (run h)) /\ seen_err (s_wire (run h)) = p_err (s_props (run h)) /\ seen_prog (s_wire (run h)) = p_prog (s_props (run h)).
Proof.
  intros h E. destruct (run_inv h) as ((V1 & V2 & V3) & (Q1 & Q2) & _).
  assert (O : has_orig (s_orig (run h)) = false). { destruct (has_orig (s_orig (run h))) eqn:O; [|reflexivity]. specialize (Q2 (Q1 eq_refl)). rewrite E in Q2. destruct Q2. }
  unfold has_orig in O. destruct (o_op (s_orig (run h))), (o_err (s_orig (run h))), (o_prog (s_orig (run h))); try discriminate. auto.
Qed.
Lemma c83_working_ok : forall h b, s_thread (run h) = Some (PWork b) -> p_err (s_props (run h)) = ""%string.
Proof. intros h b E. destruct (run_inv h) as (_ & _ & _ & (H & _) & _). exact (proj2 (proj2 (H _ E))). Qed.
Lemma run_app h l : run (h ++ l) = fold_left step l (run h).
Proof. apply fold_left_app. Qed.
Lemma c83_progress_ok : forall h b g x, s_thread (run h) = Some (PWork b) -> p_op (s_props (run h)) = true ->
  seen_prog (s_wire (run (h ++ [EThread (TProgress g); EThread x]))) = g.
Proof.
  intros h b g x T O. rewrite run_app. cbn [fold_left step].
  assert (E : thread_step (TProgress g) (run h) = set_thread (Some PFlush) (set_prog g (run h))) by (unfold thread_step; rewrite T, O; destruct b; reflexivity). rewrite E.
  destruct (run_inv h) as (HV & HQ & HD & _). destruct (set_prog_inv g _ HV HQ HD) as (V' & _). destruct (set_prog_rest g (run h)) as (_ & _ & R & _).
  assert (F : thread_step x (set_thread (Some PFlush) (set_prog g (run h))) = set_thread (Some (PWork true)) (flush (set_thread (Some PFlush) (set_prog g (run h))))) by (destruct x; reflexivity).
  rewrite F. assert (VF : V (flush (set_thread (Some PFlush) (set_prog g (run h))))) by (apply flush_V; exact V'). destruct VF as (_ & _ & VF). cbn [set_thread s_wire].
  rewrite VF. cbn [flush s_orig s_props set_thread no_orig o_prog dflt]. exact R.
Qed.

(** ** what rauc install prints *)
Lemma segment_app w l : ~ In WStarted l -> segment (w ++ l) = segment w ++ l.
Proof.
  unfold segment. rewrite fold_left_app. generalize (fold_left (fun v x => match x with WStarted => [] | _ => v ++ [x] end) w []). clear w.
  induction l as [|x l IH]; intros v H; [now rewrite app_nil_r|]. cbn [fold_left]. assert (NX : x <> WStarted) by (intros ->; apply H; now left).
  rewrite IH by (intros K; apply H; now right). destruct x; try contradiction; now rewrite <- app_assoc.
Qed.
Lemma segment_started w : segment (w ++ [WStarted]) = [].
Proof. unfold segment. now rewrite fold_left_app. Qed.
Lemma changes_no_start o p : ~ In WStarted (changes o p).
Proof. intros K. apply changes_not in K as (? & ? & ? & K). discriminate. Qed.
Lemma changes_no_refused o p : ~ In WRefused (changes o p).
Proof. intros K. apply changes_not in K as (? & ? & ? & K). discriminate. Qed.

Definition told (s : st) (r : option string) : Prop :=
  forall m, r = Some m -> m <> ""%string -> s_orig s = mkOrig None (Some ""%string) None \/ (s_orig s = no_orig /\ printed m (segment (s_wire s))).
Definition E1 (s : st) : Prop := s_busy s = true -> ~ In WRefused (segment (s_wire s)) ->
  p_op (s_props s) = true /\
  (s_thread s = Some (PWork true) -> s_orig s = no_orig) /\
  (forall r, s_thread s = Some (PEnd r) -> told s r) /\
  (forall r, In (SDone r) (s_queue s) -> told s r).
Definition E2 (s : st) : Prop := forall a m c, s_wire s = a ++ WCompleted (Some m) :: c -> m <> ""%string -> ~ In WRefused (segment a) -> printed m (segment a).

Lemma told_flush s r : told s r -> (forall m, r = Some m -> p_err (s_props s) = m) -> told (flush s) r.
Proof.
  intros H HE m -> NE. right. split; [reflexivity|]. cbn [flush s_wire]. rewrite segment_app by apply changes_no_start. unfold printed. apply in_or_app.
  destruct (H m eq_refl NE) as [E|(E & K)]; [|now left]. right. rewrite E. unfold changes. cbn [o_op o_err o_prog differs]. rewrite (HE m eq_refl).
  destruct m; [contradiction|]. now left.
Qed.
Lemma E2_app s w l : s_wire s = w ++ l -> (forall a m c, w = a ++ WCompleted (Some m) :: c -> m <> ""%string -> ~ In WRefused (segment a) -> printed m (segment a)) ->
  (forall r, ~ In (WCompleted r) l) -> E2 s.
Proof.
  intros E H N a m c E'. rewrite E in E'. apply app_eq_app in E' as (k & [(-> & X2)|(-> & X2)]).
  - destruct k as [|x k]; [cbn in X2; subst l; exfalso; apply (N (Some m)); now left|]. cbn in X2. injection X2 as <- ->. apply (H a m k). reflexivity.
  - exfalso. apply (N (Some m)). rewrite X2. apply in_or_app. right. now left.
Qed.
Lemma E2_same s s' : s_wire s' = s_wire s -> E2 s -> E2 s'.
Proof. unfold E2. now intros ->. Qed.
Lemma E2_flush s : E2 s -> E2 (flush s).
Proof. intros H. eapply E2_app; [reflexivity|exact H|]. intros r K. apply changes_not in K as (? & ? & ? & K). discriminate. Qed.
Lemma E2_send w s : match w with WCompleted _ => False | _ => True end -> E2 s -> E2 (send w s).
Proof. intros HW H. eapply E2_app; [reflexivity|exact H|]. intros r [K|[]]. subst w. exact HW. Qed.

Lemma step_told s e : Inv s -> E1 s -> E2 s -> E1 (step s e) /\ E2 (step s e).
Proof.
  intros (HV & HQ & HD & HP & HC) H1 H2. destruct HP as (P1 & P2 & P3 & P4 & P5). destruct e as [bad| |x| ]; cbn [step].
  - unfold install_bundle. destruct (s_busy s || bad) eqn:B.
    + destruct (set_op_rest false s) as (R1 & R2 & R3 & R4 & R5 & R6 & R7). split.
      * intros _ K. exfalso. apply K. cbn [send s_wire]. rewrite segment_app by (intros [F|[]]; discriminate). apply in_or_app. right. now left.
      * apply E2_send; [exact I|]. now apply (E2_same s).
    + apply orb_false_iff in B as [B ->]. destruct (set_op_rest true s) as (R1 & R2 & R3 & R4 & R5 & R6 & R7).
      assert (ND : forall r, ~ In (SDone r) (s_queue s)) by (intros r K; destruct (P2 r K); congruence). unfold install_run. split.
      * intros _ _. cbn [send set_thread set_busy flush s_props s_thread s_queue s_orig]. split; [exact R1|]. split; [discriminate|]. split; [discriminate|]. intros r K. apply R7 in K. now apply ND in K.
      * apply E2_send; [exact I|]. eapply E2_same; [|apply E2_flush, (E2_same s); [exact R6|exact H2]]. reflexivity.
  - unfold poll_install. destruct (s_busy s) eqn:B; [auto|]. destruct (set_op_rest true s) as (R1 & R2 & R3 & R4 & R5 & R6 & R7).
    assert (ND : forall r, ~ In (SDone r) (s_queue s)) by (intros r K; destruct (P2 r K); congruence). unfold install_run. split.
    + intros _ _. cbn [send set_thread set_busy s_props s_thread s_queue s_orig]. split; [exact R1|]. split; [discriminate|]. split; [discriminate|]. intros r K. apply R7 in K. now apply ND in K.
    + apply E2_send; [exact I|]. eapply E2_same; [|exact H2]. exact R6.
  - unfold thread_step. destruct (s_thread s) as [ph|] eqn:TH; [|auto]. destruct (P1 ph eq_refl) as (B & ND & PE). unfold E1 in H1 at 1. specialize (H1 B).
    destruct ph as [| bg | |r].
    + destruct (set_err_inv "" s ND HV HQ) as (_ & _ & N'). destruct (set_err_rest "" s) as (R1 & R2 & R3 & R4 & R5).
      split; [|apply (E2_same s); assumption]. intros _ K. cbn [set_thread s_wire] in K. rewrite R5 in K. destruct (H1 K) as (A & _).
      cbn [set_thread s_props s_thread s_queue]. split; [congruence|]. split; [discriminate|]. split; [discriminate|]. intros r X. now apply N' in X.
    + destruct x as [g|r].
      * assert (G : E1 (if p_op (s_props s) then set_thread (Some PFlush) (set_prog g s) else set_thread (Some (PWork true)) s) /\ E2 (if p_op (s_props s) then set_thread (Some PFlush) (set_prog g s) else set_thread (Some (PWork true)) s)); [|destruct bg; exact G].
        destruct (p_op (s_props s)) eqn:OP.
        -- destruct (set_prog_rest g s) as (R1 & R2 & R3 & R4 & R5 & R6 & R7). split; [|apply (E2_same s); assumption]. intros _ K. cbn [set_thread s_props s_thread s_queue].
           split; [congruence|]. split; [discriminate|]. split; [discriminate|]. intros r X. apply R7 in X. now apply ND in X.
        -- split; [|exact H2]. intros _ K. destruct (H1 K) as (A & _). congruence.
      * destruct bg; [|split; [intros _; exact H1|exact H2]].
        destruct r as [m|].
        -- destruct (set_err_inv m s ND HV HQ) as (_ & _ & N'). destruct (set_err_rest m s) as (R1 & R2 & R3 & R4 & R5).
           split; [|apply (E2_same s); assumption]. intros _ K. cbn [set_thread s_wire] in K. rewrite R5 in K. destruct (H1 K) as (A & O & _).
           specialize (O TH). cbn [set_thread s_props s_thread s_queue]. split; [congruence|]. split; [discriminate|]. split; [|intros r X; now apply N' in X].
           intros r X m' -> NE. apply Some_inj in X. injection X as <-. left. cbn [set_thread s_orig]. unfold set_err. rewrite PE, O. destruct (String.eqb_spec m "") as [->|_]; [contradiction|].
           match goal with |- context [notify ?x] => set (n := x) end. destruct (notify_rest n) as (_ & -> & _). reflexivity.
        -- split; [|exact H2]. intros _ K. destruct (H1 K) as (A & O & _). cbn [set_thread s_props s_thread s_queue]. split; [exact A|]. split; [discriminate|]. split; [|intros r X; now apply ND in X].
           intros r X m ->. discriminate.
    + assert (G : E1 (set_thread (Some (PWork true)) (flush s)) /\ E2 (set_thread (Some (PWork true)) (flush s))); [|destruct x; exact G].
      split; [|now apply E2_flush]. intros _ K. cbn [set_thread flush s_wire] in K. rewrite segment_app in K by apply changes_no_start.
      destruct H1 as (A & _); [intros X; apply K; apply in_or_app; now left|]. cbn [set_thread flush s_props s_thread s_queue s_orig]. split; [exact A|]. split; [reflexivity|]. split; [discriminate|].
      intros r X. now apply ND in X.
    + assert (G : E1 (set_thread None (attach (SDone r) s)) /\ E2 (set_thread None (attach (SDone r) s))); [|destruct x; exact G].
      split; [|exact H2]. intros _ K. destruct (H1 K) as (A & _ & T & _). cbn [set_thread attach s_props s_thread s_queue]. split; [exact A|]. split; [discriminate|]. split; [discriminate|].
      intros r' X. apply in_app_or in X as [X|[X|[]]]; [now apply ND in X|]. injection X as <-. exact (T r TH).
  - unfold loop. destruct (s_queue s) as [|y q] eqn:EQ; [auto|]. destruct y as [|r].
    + set (s1 := mkSt (s_props s) (s_orig s) (s_idle s) (s_busy s) (s_thread s) q (s_wire s)). split; [|now apply E2_flush].
      intros B K. cbn [flush s_wire s1 s_orig s_props] in K. rewrite segment_app in K by apply changes_no_start. cbn [flush s1 s_busy] in B.
      destruct (H1 B) as (A & O & T1 & T2); [intros X; apply K; apply in_or_app; now left|].
      cbn [flush s1 s_props s_thread s_queue s_orig]. split; [exact A|]. split; [reflexivity|]. split.
      * intros r E. apply (told_flush s1); [exact (T1 r E)|]. intros m ->. destruct (P1 _ E) as (_ & _ & X). exact X.
      * intros r E. assert (X : In (SDone r) (s_queue s)) by (rewrite EQ; now right). rewrite EQ in T2. apply (told_flush s1); [exact (T2 r ltac:(now right))|]. intros m ->. destruct (P2 (Some m) (or_intror E)) as (_ & Y). exact Y.
    + destruct (P2 r ltac:(now left)) as (B & PE).
      assert (OE : o_err (s_orig s) = None). { destruct (o_err (s_orig s)) eqn:O; [|reflexivity]. destruct (HD [] r q EQ). congruence. }
      unfold done. set (s1 := send (WCompleted r) (mkSt (s_props s) (s_orig s) (s_idle s) (s_busy s) (s_thread s) q (s_wire s))).
      destruct (set_op_rest false s1) as (R1 & R2 & R3 & R4 & R5 & R6 & R7). split; [intros K; discriminate|].
      eapply E2_same; [|apply E2_flush with (s := set_op false s1)]; [reflexivity|]. eapply E2_same; [exact R6|].
      intros a m c E NE NR. unfold s1 in E. cbn [send s_wire] in E. destruct (exists_last (l := WCompleted (Some m) :: c)) as (b' & z & EB); [discriminate|]. rewrite EB, app_assoc in E. apply app_inj_tail in E as [E <-].
      destruct b' as [|z b'].
      * cbn in EB. injection EB as <- _. rewrite app_nil_r in E. subst a. destruct (H1 B NR) as (_ & _ & _ & T). destruct (T (Some m) ltac:(rewrite EQ; now left) m eq_refl NE) as [X|(_ & X)]; [rewrite X in OE; discriminate|exact X].
      * cbn in EB. injection EB as <- _. exact (H2 a m b' E NE NR).
Qed.
Lemma run_told h : E2 (run h).
Proof.
  assert (G : forall h s, Inv s -> E1 s -> E2 s -> E2 (fold_left step h s)).
  { clear h. induction h as [|e h IH]; intros s HS A B; [exact B|]. cbn [fold_left]. destruct (step_told s e HS A B). apply IH; auto. now apply step_inv. }
  apply G; [apply Inv_init|intros K; discriminate|]. intros a m c E. destruct a; discriminate.
Qed.
Lemma c83_printed_ok : forall h a m c, s_wire (run h) = a ++ WCompleted (Some m) :: c -> m <> ""%string -> ~ In WRefused (segment a) -> printed m (segment a).
Proof. exact run_told. Qed.
(** a second client's refused request can hide the message *)
Lemma c83_printed_refuted : exists h a m c, s_wire (run h) = a ++ WCompleted (Some m) :: c /\ m <> ""%string /\ forall m', ~ printed m' (a ++ c).
Proof.
  exists [EInstall false; EThread (TEnd None); EThread (TProgress (20, "Installing"%string)); EThread (TEnd None); EThread (TEnd (Some "broken"%string));
          EInstall false; ELoop; ELoop; ELoop; ELoop; EThread (TEnd None); ELoop; ELoop].
  exists [WChanged (Some true) None None; WStarted; WChanged None None (Some (20, "Installing"%string)); WRefused; WChanged (Some false) (Some "broken"%string) None].
  exists "broken"%string, []. split; [reflexivity|]. split; [discriminate|]. intros m' K. unfold printed in K. cbn in K. intuition discriminate.
Qed.
