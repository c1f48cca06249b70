From Verif Require Import Base Service ServiceSpec.

(** ** Traces *)
Lemma started_app a b id : started (a ++ b) id <-> started a id \/ started b id.
Proof.
  split.
  - intros [o H]. apply in_app_or in H. destruct H; [left | right]; exists o; auto.
  - intros [[o H]|[o H]]; exists o; apply in_or_app; auto.
Qed.
Lemma completed_app a b id : completed (a ++ b) id <-> completed a id \/ completed b id.
Proof.
  split.
  - intros [o H]. apply in_app_or in H. destruct H; [left | right]; exists o; auto.
  - intros [[o H]|[o H]]; exists o; apply in_or_app; auto.
Qed.
Lemma ended_app a b id : ended (a ++ b) id <-> ended a id \/ ended b id.
Proof.
  split.
  - intros [o H]. apply in_app_or in H. destruct H; [left | right]; exists o; auto.
  - intros [[o H]|[o H]]; exists o; apply in_or_app; auto.
Qed.
Lemma started_one e id : started [e] id <-> exists o, e = OAccepted o id.
Proof. split; [intros [o [H|[]]] | intros [o ->]]; exists o; [auto | left; auto]. Qed.
Lemma completed_one e id : completed [e] id <-> exists o, e = OCompleted id o.
Proof. split; [intros [o [H|[]]] | intros [o ->]]; exists o; [auto | left; auto]. Qed.
Lemma ended_one e id : ended [e] id <-> exists o, e = OThreadEnd id o.
Proof. split; [intros [o [H|[]]] | intros [o ->]]; exists o; [auto | left; auto]. Qed.

Lemma protocol_nil : protocol [].
Proof. intros a e b H. destruct a; discriminate. Qed.
Lemma protocol_snoc tr e : protocol tr -> allowed tr e -> protocol (tr ++ [e]).
Proof.
  intros P A a x b H.
  destruct (@exists_last _ (x :: b) ltac:(discriminate)) as [l [y E]].
  rewrite E in H. rewrite app_assoc in H. apply app_inj_tail in H. destruct H as [H1 H2]. subst y.
  destruct l as [|z l].
  - injection E as E1 E2. subst. rewrite app_nil_r in A. exact A.
  - injection E as E1 E2. subst z. apply (P a x l). exact H1.
Qed.

(** events which neither start nor complete an installation *)
Definition neutral (e : sout) : Prop := match e with OAccepted _ _ | OCompleted _ _ => False | _ => True end.
Lemma started_snoc_neutral tr e id : neutral e -> started (tr ++ [e]) id <-> started tr id.
Proof.
  intros N. rewrite started_app, started_one. split; auto. intros [H|[o H]]; auto. subst e. destruct N.
Qed.
Lemma completed_snoc_neutral tr e id : neutral e -> completed (tr ++ [e]) id <-> completed tr id.
Proof.
  intros N. rewrite completed_app, completed_one. split; auto. intros [H|[o H]]; auto. subst e. destruct N.
Qed.

Lemma good_after_snoc tr e : good_after (tr ++ [e]) = match e with OWork (MMark g true) true => g | _ => good_after tr end.
Proof. unfold good_after. rewrite fold_left_app. reflexivity. Qed.

(** ** The invariant *)
Definition fresh (s : svc) : Prop := forall id, v_next s <= id -> ~ started (v_out s) id.
Definition all_done (tr : list sout) : Prop := forall id, started tr id -> completed tr id.
Definition only (tr : list sout) (id : nat) : Prop :=
  started tr id /\ ~ completed tr id /\ forall i, started tr i -> i <> id -> completed tr i.

Record common (s : svc) : Prop := mkCommon {
  cm_proto : protocol (v_out s);
  cm_fresh : fresh s;
  cm_good : v_good s = good_after (v_out s);
  cm_endst : forall id, ended (v_out s) id -> started (v_out s) id
}.

Inductive phase (s : svc) : Prop :=
| PhIdle :
    v_dead s = false -> v_busy s = false -> v_jobs s = [] -> v_threads s = [] -> v_queue s = [] ->
    v_polling s = false -> v_installing s = false -> all_done (v_out s) -> phase s
| PhRun (id : nat) (o : origin) (msgs : list string) (n : nat) :
    v_dead s = false -> v_busy s = true -> v_jobs s = [mkJob id o msgs None] -> v_threads s = [id] ->
    v_queue s = repeat (CNotify id) n -> (msgs <> [] -> 0 < n) ->
    v_polling s = match o with ByPolling => true | _ => false end ->
    only (v_out s) id -> ~ ended (v_out s) id -> phase s
| PhEnd (id : nat) (o : origin) (msgs : list string) (n : nat) (ok : bool) :
    v_dead s = false -> v_busy s = true -> v_jobs s = [mkJob id o msgs (Some ok)] -> v_threads s = [] ->
    v_queue s = repeat (CNotify id) n ++ [CDone id] -> (msgs <> [] -> 0 < n) ->
    v_polling s = match o with ByPolling => true | _ => false end ->
    only (v_out s) id -> In (OThreadEnd id ok) (v_out s) -> phase s
| PhDead : v_dead s = true -> phase s.

Definition inv (s : svc) : Prop := common s /\ phase s.

Lemma all_done_idle tr : all_done tr -> idle tr.
Proof. intros H id [S C]. apply C, H, S. Qed.
Lemma only_idle tr id : only tr id -> ~ idle tr.
Proof. intros (A & B & _) H. apply (H id). split; auto. Qed.
Lemma only_progress tr id : only tr id -> in_progress tr id.
Proof. intros (A & B & _). split; auto. Qed.

Lemma only_neutral tr id e : neutral e -> only tr id -> only (tr ++ [e]) id.
Proof.
  intros N (A & B & C). split; [|split].
  - rewrite started_snoc_neutral; auto.
  - rewrite completed_snoc_neutral; auto.
  - intros i H D. rewrite completed_snoc_neutral; auto. rewrite started_snoc_neutral in H; auto.
Qed.
Lemma all_done_neutral tr e : neutral e -> all_done tr -> all_done (tr ++ [e]).
Proof. intros N H i S. rewrite completed_snoc_neutral; auto. rewrite started_snoc_neutral in S; auto. Qed.

(** appending a neutral event *)
Lemma common_neutral s s' e : neutral e -> (forall id ok, e <> OThreadEnd id ok) -> common s -> allowed (v_out s) e ->
  v_out s' = v_out s ++ [e] -> v_next s' = v_next s ->
  v_good s' = match e with OWork (MMark g true) true => g | _ => v_good s end -> common s'.
Proof.
  intros N NE [P F G E] A O X G'. constructor.
  - rewrite O. apply protocol_snoc; auto.
  - intros id H. rewrite O, started_snoc_neutral; auto. apply F. rewrite X in H. exact H.
  - rewrite O, good_after_snoc, <- G. exact G'.
  - intros id H. rewrite O in *. rewrite started_snoc_neutral; auto. apply E. apply ended_app in H.
    destruct H as [H|H]; auto. apply ended_one in H. destruct H as [ok H]. destruct (NE id ok H).
Qed.
Lemma common_same s s' : common s -> v_out s' = v_out s -> v_next s' = v_next s -> v_good s' = v_good s -> common s'.
Proof.
  intros [P F G E] O X G'. constructor.
  - rewrite O. exact P.
  - intros id H. rewrite O. apply F. rewrite X in H. exact H.
  - rewrite G', O. exact G.
  - rewrite O. exact E.
Qed.

(** ** Steps *)
Lemma inv_init : inv svc_init.
Proof.
  split.
  - constructor.
    + apply protocol_nil.
    + intros id _ [o []].
    + reflexivity.
    + intros id [ok []].
  - apply PhIdle; try reflexivity. intros id [o []].
Qed.

Lemma install_run_idle o s : common s -> v_dead s = false -> v_busy s = false -> v_jobs s = [] -> v_threads s = [] -> v_queue s = [] ->
  all_done (v_out s) ->
  install_run o s =
    mkSvc (S (v_next s)) true (v_installing s) (v_good s) (v_polling s) [mkJob (v_next s) o [] None] [v_next s] [] false
      (v_out s ++ [OAccepted o (v_next s)])
  /\ common (install_run o s) /\ only (v_out (install_run o s)) (v_next s) /\ ~ ended (v_out (install_run o s)) (v_next s).
Proof.
  intros C D B J T Q A.
  assert (E : install_run o s =
    mkSvc (S (v_next s)) true (v_installing s) (v_good s) (v_polling s) [mkJob (v_next s) o [] None] [v_next s] [] false
      (v_out s ++ [OAccepted o (v_next s)])).
  { unfold install_run. rewrite J, T, Q. unfold set_busy. cbn [v_busy]. rewrite B. cbn [Bool.eqb v_dead]. rewrite D.
    reflexivity. }
  rewrite E. cbn [v_out]. destruct C as [P F G EN].
  assert (NS : ~ started (v_out s) (v_next s)) by (apply F; lia).
  assert (NC : ~ completed (v_out s) (v_next s)).
  { intros [ok H]. apply in_split in H. destruct H as (a & b & H). pose proof (P _ _ _ H) as [[X _] _].
    apply NS. rewrite H. apply started_app. left. exact X. }
  split; auto. split; [|split].
  - constructor; cbn [v_out v_next v_good].
    + apply protocol_snoc; auto. cbn. split; auto. apply all_done_idle; auto.
    + intros id H S. cbn in H. apply started_app in S. destruct S as [S|S].
      * revert S. apply F. lia.
      * apply started_one in S. destruct S as [o' S]. injection S as _ S. lia.
    + rewrite good_after_snoc. exact G.
    + intros id H. apply ended_app in H. apply started_app. destruct H as [H|H]; [left; auto|].
      apply ended_one in H. destruct H as [ok H]. discriminate.
  - split; [|split].
    + apply started_app. right. apply started_one. eauto.
    + intros H. apply completed_app in H. destruct H as [H|H]; auto. apply completed_one in H. destruct H as [ok H]. discriminate.
    + intros i S N. apply started_app in S. apply completed_app. destruct S as [S|S]; [left; auto|].
      apply started_one in S. destruct S as [o' S]. injection S as _ S. congruence.
  - intros H. apply ended_app in H. destruct H as [H|H]; [exact (NS (EN _ H))|]. apply ended_one in H. destruct H as [ok H]. discriminate.
Qed.

Lemma busy_idle s : phase s -> v_dead s = false -> v_busy s = false ->
  v_jobs s = [] /\ v_threads s = [] /\ v_queue s = [] /\ v_polling s = false /\ v_installing s = false /\ all_done (v_out s).
Proof. intros [] D B; try congruence; repeat split; auto. Qed.

(** a phase does not depend on the Operation property unless idle, nor on [good] *)
Lemma phase_neutral s s' e : neutral e -> (forall id ok, e <> OThreadEnd id ok) -> phase s ->
  v_dead s' = v_dead s -> v_busy s' = v_busy s -> v_jobs s' = v_jobs s -> v_threads s' = v_threads s -> v_queue s' = v_queue s ->
  v_polling s' = v_polling s -> (v_busy s = false -> v_installing s' = false) -> v_out s' = v_out s ++ [e] -> phase s'.
Proof.
  intros N NE H D B J T Q P I O.
  assert (X : forall id, ended (v_out s') id -> ended (v_out s) id).
  { intros id X. rewrite O in X. apply ended_app in X. destruct X as [X|X]; auto. apply ended_one in X. destruct X as [ok X]. destruct (NE _ _ X). }
  destruct H as [H1 H2 H3 H4 H5 H6 H7 H8 | id o msgs n H1 H2 H3 H4 H5 H6 H7 H8 H9 | id o msgs n ok H1 H2 H3 H4 H5 H6 H7 H8 H9 | H1].
  - apply PhIdle; try congruence. { apply I; auto. } rewrite O. apply all_done_neutral; auto.
  - apply (PhRun s' id o msgs n); try congruence; auto.
    rewrite O. apply only_neutral; auto.
  - apply (PhEnd s' id o msgs n ok); try congruence; auto.
    + rewrite O. apply only_neutral; auto.
    + rewrite O. apply in_or_app. left. auto.
  - apply PhDead. congruence.
Qed.
Lemma phase_same s s' : phase s ->
  v_dead s' = v_dead s -> v_busy s' = v_busy s -> v_jobs s' = v_jobs s -> v_threads s' = v_threads s -> v_queue s' = v_queue s ->
  v_polling s' = v_polling s -> v_installing s' = v_installing s -> v_out s' = v_out s -> phase s'.
Proof.
  intros H D B J T Q P I O.
  destruct H as [H1 H2 H3 H4 H5 H6 H7 H8 | id o msgs n H1 H2 H3 H4 H5 H6 H7 H8 H9 | id o msgs n ok H1 H2 H3 H4 H5 H6 H7 H8 H9 | H1].
  - apply PhIdle; try congruence; rewrite O; auto.
  - apply (PhRun s' id o msgs n); try congruence; auto; rewrite O; auto.
  - apply (PhEnd s' id o msgs n ok); try congruence; auto; rewrite O; auto.
  - apply PhDead. congruence.
Qed.

Lemma inv_install u s : inv s -> v_dead s = false -> inv (on_install u s).
Proof.
  intros [C P] D. unfold on_install.
  destruct (v_busy s) eqn:B.
  - split.
    + apply (common_neutral s _ (ORefused None)); cbn; auto; discriminate.
    + apply (phase_neutral s _ (ORefused None)); cbn; auto; discriminate.
  - destruct u.
    + split.
      * apply (common_neutral s _ (ORefused None)); cbn; auto; discriminate.
      * apply (phase_neutral s _ (ORefused None)); cbn; auto; discriminate.
    + destruct (busy_idle s P D B) as (J & T & Q & PO & IN & A).
      assert (C' : common (set_op true s)) by (apply (common_same s); auto).
      destruct (install_run_idle ByClient (set_op true s) C' D B J T Q A) as (E & C2 & O2 & N2).
      split; auto. rewrite E in *. cbn in O2, N2 |- *.
      apply (PhRun _ (v_next s) ByClient [] 0); cbn; auto; congruence.
Qed.

Lemma inv_method m ok s : inv s -> v_dead s = false -> inv (on_method m ok s).
Proof.
  intros [C P] D. unfold on_method.
  destruct (v_busy s) eqn:B.
  - split.
    + apply (common_neutral s _ (ORefused (Some m))); cbn; auto; discriminate.
    + apply (phase_neutral s _ (ORefused (Some m))); cbn; auto; try discriminate. intros Y. congruence.
  - destruct (busy_idle s P D B) as (J & T & Q & PO & IN & A).
    assert (AL : allowed (v_out s) (OWork m ok)) by (cbn; apply all_done_idle; auto).
    match goal with |- inv ?x => set (s' := x) end.
    assert (F : v_out s' = v_out s ++ [OWork m ok] /\ v_next s' = v_next s /\
                v_good s' = match m with MMark g true => if ok then g else v_good s | _ => v_good s end /\
                v_dead s' = v_dead s /\ v_busy s' = v_busy s /\ v_jobs s' = v_jobs s /\ v_threads s' = v_threads s /\
                v_queue s' = v_queue s /\ v_polling s' = v_polling s /\ v_installing s' = v_installing s).
    { subst s'. destruct m as [ | g [] | | | ]; try destruct ok; cbn; repeat split; auto. }
    destruct F as (F1 & F2 & F3 & F4 & F5 & F6 & F7 & F8 & F9 & F10).
    split.
    + apply (common_neutral s _ (OWork m ok)); auto; try exact I; try discriminate.
    + apply (phase_neutral s _ (OWork m ok)); auto; try exact I; try discriminate. congruence.
Qed.

Lemma inv_auto s : inv s -> v_dead s = false -> inv (on_autoinstall s).
Proof.
  intros [C P] D. unfold on_autoinstall.
  destruct (v_busy s) eqn:B.
  - split; [apply (common_same s); auto|]. apply PhDead. reflexivity.
  - destruct (busy_idle s P D B) as (J & T & Q & PO & IN & A).
    destruct (install_run_idle ByAuto s C D B J T Q A) as (E & C2 & O2 & N2).
    split; auto. rewrite E in *. cbn in O2, N2 |- *.
    apply (PhRun _ (v_next s) ByAuto [] 0); cbn; auto; congruence.
Qed.

Lemma inv_poll i s : inv s -> v_dead s = false -> inv (on_poll i s).
Proof.
  intros [C P] D. unfold on_poll.
  destruct (v_polling s) eqn:PP; [split; auto|].
  destruct (v_busy s) eqn:B; [split; auto|].
  destruct (v_good s) eqn:G; [|split; auto]. cbn [negb].
  destruct (busy_idle s P D B) as (J & T & Q & PO & IN & A).
  assert (C1 : common (emit [OPoll] s)).
  { apply (common_neutral s _ OPoll); cbn; auto; try discriminate. split; [apply all_done_idle; auto|].
    rewrite <- (cm_good s C). exact G. }
  assert (A1 : all_done (v_out (emit [OPoll] s))) by (apply all_done_neutral; cbn; auto).
  destruct i.
  - assert (C' : common (set_op true (emit [OPoll] s))) by (apply (common_same (emit [OPoll] s)); auto).
    destruct (install_run_idle ByPolling _ C' D B J T Q A1) as (E & C2 & O2 & N2).
    split; [apply (common_same _ _ C2); auto|]. rewrite E in *. cbn in O2, N2 |- *.
    apply (PhRun _ (v_next s) ByPolling [] 0); cbn; auto; congruence.
  - split; auto. apply PhIdle; cbn; auto.
Qed.

Lemma find_job_one id o m r : find_job id [mkJob id o m r] = Some (mkJob id o m r).
Proof. unfold find_job. cbn [find j_id]. rewrite Nat.eqb_refl. reflexivity. Qed.
Lemma upd_job_one id o m r f : upd_job id f [mkJob id o m r] = [f (mkJob id o m r)].
Proof. unfold upd_job. cbn [map j_id]. rewrite Nat.eqb_refl. reflexivity. Qed.

(** messages of the running installation *)
Lemma args_update_run id o msgs r msg s : v_jobs s = [mkJob id o msgs r] ->
  exists n msgs', args_update id msg s =
    mkSvc (v_next s) (v_busy s) (v_installing s) (v_good s) (v_polling s) [mkJob id o msgs' r] (v_threads s)
      (v_queue s ++ repeat (CNotify id) n) (v_dead s) (v_out s)
    /\ (0 < n \/ msgs' = msgs).
Proof.
  intros J. unfold args_update. rewrite J, find_job_one. cbn [j_origin].
  destruct o.
  - exists 1, (msgs ++ [msg]). rewrite upd_job_one. split; [reflexivity | left; lia].
  - exists 0, msgs. rewrite app_nil_r. split; [destruct s; cbn in *; subst; reflexivity | right; reflexivity].
  - exists 1, (msgs ++ [msg]). rewrite upd_job_one. split; [reflexivity | left; lia].
Qed.

Lemma inv_thread id a s : inv s -> v_dead s = false -> inv (thread_step id a s).
Proof.
  intros [C P] D. unfold thread_step.
  destruct (existsb (Nat.eqb id) (v_threads s)) eqn:X; [|split; auto].
  destruct P as [H1 H2 H3 H4 H5 H6 H7 H8 | id' o msgs n H1 H2 H3 H4 H5 H6 H7 H8 H9 | id' o msgs n ok H1 H2 H3 H4 H5 H6 H7 H8 H9 | H1];
    try (rewrite H4 in X; discriminate); [|congruence].
  assert (id' = id) as ->.
  { rewrite H4 in X. cbn in X. rewrite orb_false_r in X. apply Nat.eqb_eq in X. auto. }
  destruct a as [msg | pct | ok msg].
  - destruct (args_update_run id o msgs None msg s H3) as (k & msgs' & E & M). rewrite E. split.
    + apply (common_same s); auto.
    + apply (PhRun _ id o msgs' (n + k)); cbn; auto.
      * rewrite H5, repeat_app. reflexivity.
      * intros Y. destruct M as [M| ->]; [lia|]. specialize (H6 Y). lia.
  - destruct (v_installing s) eqn:I.
    + split.
      * apply (common_neutral s _ (OProgress id pct)); cbn; auto; try discriminate. apply only_progress; auto.
      * apply (phase_neutral s _ (OProgress id pct)); cbn; auto; try discriminate.
        -- apply (PhRun _ id o msgs n); auto.
        -- congruence.
    + split; auto. apply (PhRun _ id o msgs n); auto.
  - set (s1 := if ok then s else args_update id msg s).
    assert (E1 : exists k1 m1, s1 = mkSvc (v_next s) (v_busy s) (v_installing s) (v_good s) (v_polling s) [mkJob id o m1 None] (v_threads s)
                                  (v_queue s ++ repeat (CNotify id) k1) (v_dead s) (v_out s) /\ (0 < k1 \/ m1 = msgs)).
    { subst s1. destruct ok.
      - exists 0, msgs. rewrite app_nil_r. split; auto. destruct s; cbn in *; subst; reflexivity.
      - apply args_update_run; auto. }
    destruct E1 as (k1 & m1 & E1 & M1).
    set (s2 := set_jobs (upd_job id (fun j => mkJob (j_id j) (j_origin j) (j_msgs j) (Some ok)) (v_jobs s1)) s1).
    assert (J2 : v_jobs s2 = [mkJob id o m1 (Some ok)]).
    { subst s2. rewrite E1. cbn [v_jobs set_jobs]. rewrite upd_job_one. reflexivity. }
    destruct (args_update_run id o m1 (Some ok) "finished" s2 J2) as (k2 & m2 & E2 & M2). rewrite E2.
    assert (F : v_next s2 = v_next s /\ v_busy s2 = v_busy s /\ v_installing s2 = v_installing s /\ v_good s2 = v_good s /\
                v_polling s2 = v_polling s /\ v_threads s2 = v_threads s /\ v_queue s2 = v_queue s ++ repeat (CNotify id) k1 /\
                v_dead s2 = v_dead s /\ v_out s2 = v_out s).
    { subst s2. rewrite E1. cbn. repeat split. }
    destruct F as (F1 & F2 & F3 & F4 & F5 & F6 & F7 & F8 & F9).
    clearbody s2. unfold emit, set_queue, set_threads. cbn. rewrite F1, F2, F3, F4, F5, F6, F7, F8, F9, H4, H5.
    split.
    + destruct C as [P F G EN]. constructor; cbn [v_out v_good v_next].
      * apply protocol_snoc; auto. cbn. split; [apply only_progress; auto | auto].
      * intros i Hi. cbn in Hi. cbn [v_out]. rewrite started_snoc_neutral; [|exact I]. apply F. exact Hi.
      * rewrite good_after_snoc. exact G.
      * intros i Hi. rewrite started_snoc_neutral; [|exact I]. apply ended_app in Hi. destruct Hi as [Hi|Hi]; auto.
        apply ended_one in Hi. destruct Hi as [b Hi]. injection Hi as -> _. apply H8.
    + apply (PhEnd _ id o m2 (n + k1 + k2) ok); cbn; auto.
      * rewrite Nat.eqb_refl. reflexivity.
      * rewrite <- !repeat_app. reflexivity.
      * intros Y. destruct M2 as [M2| ->]; [lia|]. destruct M1 as [M1| ->]; [lia|]. specialize (H6 Y). lia.
      * apply only_neutral; [exact I | auto].
      * apply in_or_app. right. left. reflexivity.
Qed.

Lemma emits_messages id ms : forall s, common s -> (exists o r, only (v_out s) id /\ v_jobs s = [mkJob id o [] r]) ->
  common (emit (map (OMessage id) ms) s) /\ only (v_out (emit (map (OMessage id) ms) s)) id
  /\ (forall i, ended (v_out (emit (map (OMessage id) ms) s)) i -> ended (v_out s) i).
Proof.
  induction ms as [|m ms IH]; intros s C (o & r & O & J).
  - split; [apply (common_same s); auto; cbn; apply app_nil_r|]. split; cbn; rewrite app_nil_r; auto.
  - assert (E : emit (map (OMessage id) (m :: ms)) s = emit (map (OMessage id) ms) (emit [OMessage id m] s)).
    { unfold emit. cbn. rewrite <- app_assoc. reflexivity. }
    rewrite E.
    assert (O1 : only (v_out (emit [OMessage id m] s)) id) by (apply only_neutral; [exact I | auto]).
    assert (C1 : common (emit [OMessage id m] s)).
    { apply (common_neutral s _ (OMessage id m)); cbn; auto; try discriminate. apply only_progress; auto. }
    destruct (IH _ C1) as (A & B & D). { exists o, r. split; auto. }
    split; auto. split; auto. intros i Hi. apply D in Hi. cbn in Hi. apply ended_app in Hi. destruct Hi as [Hi|Hi]; auto.
    apply ended_one in Hi. destruct Hi as [ok Hi]. discriminate.
Qed.

Lemma inv_loop s : inv s -> v_dead s = false -> inv (dispatch s).
Proof.
  intros [C P] D. unfold dispatch.
  destruct P as [H1 H2 H3 H4 H5 H6 H7 H8 | id o msgs n H1 H2 H3 H4 H5 H6 H7 H8 H9 | id o msgs n ok H1 H2 H3 H4 H5 H6 H7 H8 H9 | H1]; [| | |congruence].
  - rewrite H5. split; auto. apply PhIdle; auto.
  - destruct n as [|n]; rewrite H5; cbn [repeat].
    + split; auto. apply (PhRun _ id o msgs 0); auto.
    + rewrite H3, find_job_one. cbn [j_msgs]. rewrite upd_job_one. cbn [j_id j_origin j_result].
      set (s1 := set_jobs _ _).
      destruct (emits_messages id msgs s1) as (A & B & E).
      { apply (common_same s); auto. } { exists o, None. split; auto. }
      split; auto. apply (PhRun _ id o [] n); auto. congruence.
  - destruct n as [|n]; rewrite H5; cbn [repeat app].
    + rewrite H3, find_job_one. cbn [j_origin j_result]. assert (msgs = []) as ->.
      { destruct msgs; auto. assert (0 < 0) by (apply H6; discriminate). lia. }
      set (s1 := match o with ByPolling => set_polling false (set_queue [] s) | _ => set_queue [] s end).
      assert (F : v_next s1 = v_next s /\ v_busy s1 = true /\ v_good s1 = v_good s /\ v_polling s1 = false /\ v_jobs s1 = [mkJob id o [] (Some ok)] /\
                  v_threads s1 = [] /\ v_queue s1 = [] /\ v_dead s1 = false /\ v_out s1 = v_out s).
      { subst s1. destruct o; cbn; repeat split; auto. }
      destruct F as (F1 & F2 & F3 & F4 & F5 & F6 & F7 & F8 & F9).
      clearbody s1. unfold args_free. cbn [j_result j_msgs j_id]. unfold set_jobs, emit, set_op. cbn. rewrite F8. unfold set_busy. cbn [v_busy]. rewrite F2.
      cbn [Bool.eqb]. cbn. rewrite F1, F3, F4, F5, F6, F7, F9. cbn [filter j_id]. rewrite Nat.eqb_refl. cbn [negb].
      destruct C as [P F G EN]. destruct H8 as (OA & OB & OC).
      split.
      * constructor; cbn [v_out v_good v_next].
        -- apply protocol_snoc; auto. cbn. split; auto. split; auto.
        -- intros i Hi S. cbn in Hi, S. apply started_app in S. destruct S as [S|S].
           ++ exact (F i Hi S).
           ++ apply started_one in S. destruct S as [x S]. discriminate.
        -- rewrite good_after_snoc. exact G.
        -- intros i Hi. apply ended_app in Hi. apply started_app. left. destruct Hi as [Hi|Hi]; auto.
           apply ended_one in Hi. destruct Hi as [x Hi]. discriminate.
      * apply PhIdle; cbn; auto. intros i S. apply started_app in S. apply completed_app. destruct S as [S|S].
        -- destruct (Nat.eq_dec i id) as [->|Ne]; [right; apply completed_one; eauto | left; auto].
        -- apply started_one in S. destruct S as [x S]. discriminate.
    + rewrite H3, find_job_one. cbn [j_msgs]. rewrite upd_job_one. cbn [j_id j_origin j_result].
      set (s1 := set_jobs _ _).
      destruct (emits_messages id msgs s1) as (A & B & E).
      { apply (common_same s); auto. } { exists o, (Some ok). split; auto. }
      split; auto. apply (PhEnd _ id o [] n ok); auto; [congruence|]. cbn. apply in_or_app. left. exact H9.
Qed.

Lemma inv_step s e : inv s -> inv (sstep s e).
Proof.
  intros H. unfold sstep. destruct (v_dead s) eqn:D; auto.
  destruct e; [apply inv_install | apply inv_method | apply inv_auto | apply inv_poll | apply inv_thread | apply inv_loop]; auto.
Qed.
Lemma inv_run h : inv (srun h).
Proof.
  unfold srun. generalize inv_init. generalize svc_init. induction h as [|e h IH]; intros s H; cbn; auto.
  apply IH, inv_step, H.
Qed.
Lemma srun_snoc h e : srun (h ++ [e]) = sstep (srun h) e.
Proof. unfold srun. rewrite fold_left_app. reflexivity. Qed.

(** ** Theorems *)

Lemma service_protocol_ok : forall h, protocol (v_out (srun h)).
Proof. intros h. apply (inv_run h). Qed.

Lemma phase_busy_iff s : inv s -> v_dead s = false -> (v_busy s = false <-> idle (v_out s)).
Proof.
  intros [C P] D. destruct P as [H1 H2 H3 H4 H5 H6 H7 H8 | id o msgs n H1 H2 H3 H4 H5 H6 H7 H8 H9 | id o msgs n ok H1 H2 H3 H4 H5 H6 H7 H8 H9 | H1].
  - split; auto. intros _. apply all_done_idle; auto.
  - split; [congruence|]. intros H. destruct (only_idle _ _ H8 H).
  - split; [congruence|]. intros H. destruct (only_idle _ _ H8 H).
  - congruence.
Qed.

(** while an installation is in progress every request is refused *)
Lemma service_refuses_ok : forall h id, v_dead (srun h) = false -> in_progress (v_out (srun h)) id ->
  (forall u, v_out (srun (h ++ [EInstall u])) = v_out (srun h) ++ [ORefused None]) /\
  (forall m ok, v_out (srun (h ++ [EMethod m ok])) = v_out (srun h) ++ [ORefused (Some m)]) /\
  (forall i, v_out (srun (h ++ [EPoll i])) = v_out (srun h)).
Proof.
  intros h id D IP. pose proof (inv_run h) as I.
  assert (B : v_busy (srun h) = true).
  { destruct (v_busy (srun h)) eqn:B; auto. apply (phase_busy_iff _ I D) in B. destruct (B id IP). }
  repeat split; intros; rewrite srun_snoc; unfold sstep; rewrite D; unfold on_install, on_method, on_poll; rewrite B; cbn; auto.
  destruct (v_polling (srun h)); auto.
Qed.

(** when no installation is in progress, requests are served *)
Lemma service_serves_ok : forall h, v_dead (srun h) = false -> idle (v_out (srun h)) ->
  (exists id, v_out (srun (h ++ [EInstall false])) = v_out (srun h) ++ [OAccepted ByClient id]) /\
  (forall m ok, v_out (srun (h ++ [EMethod m ok])) = v_out (srun h) ++ [OWork m ok]) /\
  (good_after (v_out (srun h)) = true -> v_out (srun (h ++ [EPoll false])) = v_out (srun h) ++ [OPoll]).
Proof.
  intros h D ID. pose proof (inv_run h) as I.
  pose proof (proj2 (phase_busy_iff _ I D) ID) as B.
  destruct I as [C P]. destruct (busy_idle _ P D B) as (J & T & Q & PO & IN & A).
  repeat split; intros.
  - rewrite srun_snoc; unfold sstep; rewrite D; unfold on_install. rewrite B.
    destruct (install_run_idle ByClient (set_op true (srun h))) as (E & _); auto. { apply (common_same (srun h)); auto. }
    exists (v_next (srun h)). rewrite E. reflexivity.
  - rewrite srun_snoc; unfold sstep; rewrite D; unfold on_method. rewrite B. destruct m as [|g []| | |], ok; reflexivity.
  - rewrite srun_snoc; unfold sstep; rewrite D; unfold on_poll. rewrite PO, B, (cm_good _ C), H. reflexivity.
Qed.

(** the service does not abort, except for a bundle installed automatically while busy *)
Lemma dead_step s e : inv s -> v_dead s = false -> e <> EAuto -> v_dead (sstep s e) = false.
Proof.
  intros IV D NE. unfold sstep. rewrite D. pose proof IV as [C P]. destruct e; try congruence.
  - unfold on_install. destruct (v_busy s) eqn:B; auto. destruct unsupported; auto.
    destruct (busy_idle s P D B) as (J & T & Q & PO & IN & A).
    destruct (install_run_idle ByClient (set_op true s)) as (E & _); auto. { apply (common_same s); auto. } rewrite E. reflexivity.
  - unfold on_method. destruct (v_busy s); auto. destruct m as [|g []| | |], ok; auto.
  - unfold on_poll. destruct (v_polling s); auto. destruct (v_busy s) eqn:B; auto. destruct (v_good s) eqn:G; auto. cbn [negb].
    destruct install; auto. destruct (busy_idle s P D B) as (J & T & Q & PO & IN & A).
    destruct (install_run_idle ByPolling (set_op true (emit [OPoll] s))) as (E & _); auto.
    + apply (common_same (emit [OPoll] s)); auto. apply (common_neutral s _ OPoll); cbn; auto; try discriminate.
      split; [apply all_done_idle; auto|]. rewrite <- (cm_good s C). exact G.
    + apply all_done_neutral; [exact I | auto].
    + rewrite E. reflexivity.
  - unfold thread_step. destruct (existsb (Nat.eqb id) (v_threads s)) eqn:X; auto.
    destruct P as [H1 H2 H3 H4 H5 H6 H7 H8 | id' o msgs n H1 H2 H3 H4 H5 H6 H7 H8 H9 | id' o msgs n ok H1 H2 H3 H4 H5 H6 H7 H8 H9 | H1];
    try (rewrite H4 in X; discriminate); [|congruence].
    assert (id' = id) as ->.
    { rewrite H4 in X. cbn in X. rewrite orb_false_r in X. apply Nat.eqb_eq in X. auto. }
    destruct a as [msg | pct | ok msg].
    + destruct (args_update_run id o msgs None msg s H3) as (k & m' & E & _). rewrite E. auto.
    + destruct (v_installing s); auto.
    + set (s1 := if ok then s else args_update id msg s).
      assert (E1 : exists m1, v_dead s1 = false /\ v_jobs s1 = [mkJob id o m1 None]).
      { subst s1. destruct ok; [eauto|]. destruct (args_update_run id o msgs None msg s H3) as (k & m' & E & _). rewrite E. cbn. eauto. }
      destruct E1 as (m1 & D1 & J1).
      set (s2 := set_jobs (upd_job id (fun j => mkJob (j_id j) (j_origin j) (j_msgs j) (Some ok)) (v_jobs s1)) s1).
      assert (J2 : v_jobs s2 = [mkJob id o m1 (Some ok)]).
      { subst s2. cbn. rewrite J1, upd_job_one. reflexivity. }
      destruct (args_update_run id o m1 (Some ok) "finished" s2 J2) as (k2 & m2 & E2 & M2). rewrite E2. cbn. exact D1.
  - unfold dispatch.
    destruct P as [H1 H2 H3 H4 H5 H6 H7 H8 | id o msgs n H1 H2 H3 H4 H5 H6 H7 H8 H9 | id o msgs n ok H1 H2 H3 H4 H5 H6 H7 H8 H9 | H1]; [| | |congruence].
    + rewrite H5. auto.
    + destruct n as [|n]; rewrite H5; cbn [repeat]; auto. rewrite H3, find_job_one. cbn. auto.
    + destruct n as [|n]; rewrite H5; cbn [repeat app]; rewrite H3, find_job_one; auto.
      assert (msgs = []) as ->. { destruct msgs; auto. assert (0 < 0) by (apply H6; discriminate). lia. }
      cbn [j_origin j_result j_msgs args_free j_id]. destruct o; cbn; rewrite D; unfold set_busy; cbn; rewrite H2; cbn; auto.
Qed.
Lemma service_no_abort_ok : forall h, ~ In EAuto h -> v_dead (srun h) = false.
Proof.
  intros h. induction h as [|e h IH] using rev_ind; intros H; auto.
  rewrite srun_snoc. apply dead_step; [apply inv_run | apply IH | ]; intros X; apply H, in_or_app; auto. right. left. auto.
Qed.

Lemma set_busy_frame b s : v_threads (set_busy b s) = v_threads s /\ v_queue (set_busy b s) = v_queue s.
Proof. unfold set_busy. destruct (Bool.eqb (v_busy s) b); auto. Qed.
Lemma args_free_frame j s : v_threads (args_free j s) = v_threads s /\ v_queue (args_free j s) = v_queue s.
Proof. unfold args_free. destruct (j_result j), (j_msgs j); auto. Qed.
Lemma dispatch_frame s : v_threads (dispatch s) = v_threads s /\ v_queue (dispatch s) = tl (v_queue s).
Proof.
  unfold dispatch. destruct (v_queue s) as [|[id|id] q] eqn:Q; auto.
  - destruct (find_job id (v_jobs s)); auto.
  - destruct (find_job id (v_jobs s)) as [j|]; auto.
    set (s1 := emit _ _). assert (T1 : v_threads s1 = v_threads s /\ v_queue s1 = q) by (subst s1; destruct (j_origin j); auto).
    clearbody s1. destruct T1 as [T1 T2]. destruct (args_free_frame j s1) as [A1 A2].
    destruct (v_dead (args_free j s1)); [|destruct (set_busy_frame false (args_free j s1)) as [B1 B2]]; split; cbn; congruence.
Qed.

(** every installation which ended is reported, once the main loop had time for the queued callbacks *)
Lemma loops_complete n : forall s, inv s -> v_dead s = false -> v_threads s = [] -> List.length (v_queue s) <= n ->
  idle (v_out (fold_left sstep (repeat ELoop n) s)).
Proof.
  induction n as [|n IH]; intros s I D T L.
  - destruct I as [C P]. cbn.
    destruct P as [H1 H2 H3 H4 H5 H6 H7 H8 | id o msgs k H1 H2 H3 H4 H5 H6 H7 H8 H9 | id o msgs k ok H1 H2 H3 H4 H5 H6 H7 H8 H9 | H1]; [| | |congruence].
    + apply all_done_idle; auto.
    + rewrite H4 in T. discriminate.
    + rewrite H5, app_length in L. cbn in L. lia.
  - cbn [repeat fold_left]. apply IH.
    + apply inv_step; auto.
    + apply dead_step; auto. discriminate.
    + unfold sstep. rewrite D. rewrite (proj1 (dispatch_frame s)). exact T.
    + unfold sstep. rewrite D. rewrite (proj2 (dispatch_frame s)). destruct (v_queue s); cbn in *; lia.
Qed.
Lemma service_completes_ok : forall h, ~ In EAuto h -> (forall id, started (v_out (srun h)) id -> ended (v_out (srun h)) id) ->
  exists n, idle (v_out (srun (h ++ repeat ELoop n))).
Proof.
  intros h NA H. pose proof (service_no_abort_ok h NA) as D. exists (List.length (v_queue (srun h))).
  unfold srun. rewrite fold_left_app. apply loops_complete; auto. { apply inv_run. }
  destruct (inv_run h) as [C P].
  destruct P as [H1 H2 H3 H4 H5 H6 H7 H8 | id o msgs k H1 H2 H3 H4 H5 H6 H7 H8 H9 | id o msgs k ok H1 H2 H3 H4 H5 H6 H7 H8 H9 | H1]; auto; [|congruence].
  destruct H9. apply H. apply H8.
Qed.

(** the Operation property *)
Lemma op_only_busy s : inv s -> v_dead s = false -> v_installing s = true -> exists id, in_progress (v_out s) id.
Proof.
  intros [C P] D I. destruct P as [H1 H2 H3 H4 H5 H6 H7 H8 | id o msgs n H1 H2 H3 H4 H5 H6 H7 H8 H9 | id o msgs n ok H1 H2 H3 H4 H5 H6 H7 H8 H9 | H1]; try congruence; exists id; apply only_progress; auto.
Qed.
Lemma service_operation_ok : forall h, v_dead (srun h) = false -> v_installing (srun h) = true -> exists id, in_progress (v_out (srun h)) id.
Proof. intros h. apply op_only_busy, inv_run. Qed.

Definition op_ok (s : svc) : Prop :=
  forall a o id b, v_out s = a ++ OAccepted o id :: b -> in_progress (v_out s) id -> o <> ByAuto -> ~ In (ORefused None) b -> v_installing s = true.

Lemma args_update_frame id m s : v_busy (args_update id m s) = v_busy s /\ v_installing (args_update id m s) = v_installing s /\ v_out (args_update id m s) = v_out s.
Proof. unfold args_update. destruct (find_job id (v_jobs s)) as [j|]; [destruct (j_origin j)|]; cbn; auto. Qed.

Lemma step_shape s e : inv s -> exists l, v_out (sstep s e) = v_out s ++ l /\
  ((v_installing (sstep s e) = v_installing s /\ forall o id, ~ In (OAccepted o id) l)
   \/ v_installing (sstep s e) = true
   \/ (idle (v_out s) /\ exists id, l = [OAccepted ByAuto id])
   \/ l = [ORefused None]
   \/ idle (v_out (sstep s e))).
Proof.
  intros IV. unfold sstep. destruct (v_dead s) eqn:D.
  { exists []. rewrite app_nil_r. split; auto. }
  pose proof IV as [C P].
  destruct e.
  - unfold on_install. destruct (v_busy s) eqn:B.
    + exists [ORefused None]. cbn. auto 6.
    + destruct unsupported; [exists [ORefused None]; cbn; auto 6|].
      destruct (busy_idle s P D B) as (J & T & Q & PO & IN & A).
      destruct (install_run_idle ByClient (set_op true s)) as (E & _); auto. { apply (common_same s); auto. }
      rewrite E. eexists. split; [reflexivity|]. auto.
  - unfold on_method. destruct (v_busy s) eqn:B.
    + exists [ORefused (Some m)]. cbn. split; auto. left. split; auto. intros o id [H|[]]. discriminate.
    + exists [OWork m ok]. assert (X : forall o id, ~ In (OAccepted o id) [OWork m ok]). { intros o id [H|[]]. discriminate. }
      destruct m as [|g []| | |], ok; cbn; auto.
  - unfold on_autoinstall. destruct (v_busy s) eqn:B.
    + exists []. cbn. rewrite app_nil_r. auto.
    + destruct (busy_idle s P D B) as (J & T & Q & PO & IN & A).
      destruct (install_run_idle ByAuto s) as (E & _); auto.
      rewrite E. eexists. split; [reflexivity|]. right. right. left. split; eauto. apply all_done_idle; auto.
  - unfold on_poll. destruct (v_polling s); [exists []; rewrite app_nil_r; auto|].
    destruct (v_busy s) eqn:B; [exists []; rewrite app_nil_r; auto|]. destruct (v_good s) eqn:G; [|exists []; rewrite app_nil_r; auto]. cbn [negb].
    destruct install.
    2:{ exists [OPoll]. cbn. split; auto. left. split; auto. intros o id [H|[]]. discriminate. }
    destruct (busy_idle s P D B) as (J & T & Q & PO & IN & A).
    destruct (install_run_idle ByPolling (set_op true (emit [OPoll] s))) as (E & _); auto.
    + apply (common_same (emit [OPoll] s)); auto. apply (common_neutral s _ OPoll); cbn; auto; try discriminate.
      split; [apply all_done_idle; auto|]. rewrite <- (cm_good s C). exact G.
    + apply all_done_neutral; [exact I | auto].
    + rewrite E. cbn. eexists. rewrite <- app_assoc. split; [reflexivity|]. auto.
  - unfold thread_step. destruct (existsb (Nat.eqb id) (v_threads s)); [|exists []; rewrite app_nil_r; auto].
    destruct a as [msg | pct | ok msg].
    + destruct (args_update_frame id msg s) as (A1 & A2 & A3). rewrite A2, A3. exists []. rewrite app_nil_r. auto.
    + destruct (v_installing s) eqn:I; [|exists []; rewrite app_nil_r; auto].
      exists [OProgress id pct]. cbn. auto.
    + cbn. set (s2 := set_jobs _ _). destruct (args_update_frame id "finished" s2) as (A1 & A2 & A3). rewrite A2, A3. subst s2. cbn.
      exists [OThreadEnd id ok].
      assert (X : forall o i, ~ In (OAccepted o i) [OThreadEnd id ok]). { intros o i [H|[]]. discriminate. }
      destruct ok; auto. destruct (args_update_frame id msg s) as (B1 & B2 & B3). rewrite B2, B3. auto.
  - pose proof (inv_loop s IV D) as IV'. unfold dispatch in *.
    destruct P as [H1 H2 H3 H4 H5 H6 H7 H8 | id o msgs n H1 H2 H3 H4 H5 H6 H7 H8 H9 | id o msgs n ok H1 H2 H3 H4 H5 H6 H7 H8 H9 | H1]; [| | |congruence].
    + rewrite H5. exists []. rewrite app_nil_r. auto.
    + destruct n as [|n]; rewrite H5; cbn [repeat]; [exists []; rewrite app_nil_r; auto|]. rewrite H3, find_job_one. cbn.
      eexists. split; [reflexivity|]. left. split; auto. intros o' i H. apply in_map_iff in H. destruct H as (x & H & _). discriminate.
    + destruct n as [|n]; rewrite H5 in *; cbn [repeat app] in *; rewrite H3, find_job_one in *.
      * assert (msgs = []) as ->. { destruct msgs; auto. assert (0 < 0) by (apply H6; discriminate). lia. }
        revert IV'. cbn [j_origin j_result args_free j_msgs]. set (s1 := match o with ByPolling => _ | _ => _ end). intros IV'.
        assert (O1 : v_out s1 = v_out s /\ v_busy s1 = true /\ v_dead s1 = false). { subst s1. destruct o; auto. } destruct O1 as (O1 & O2 & O3). clearbody s1.
        revert IV'. unfold set_jobs, emit, set_op. cbn. rewrite O3. unfold set_busy. cbn. rewrite O2. cbn. rewrite O1. intros IV'.
        exists [OCompleted id ok]. split; auto. do 4 right.
        apply (phase_busy_iff _ IV'); reflexivity.
      * cbn. eexists. split; [reflexivity|]. left. split; auto. intros o' i H. apply in_map_iff in H. destruct H as (x & H & _). discriminate.
Qed.

Lemma op_step s e : inv s -> op_ok s -> op_ok (sstep s e).
Proof.
  intros IV OS a o id b E IP NA NR.
  destruct (step_shape s e IV) as (l & O & SH). rewrite O in E, IP.
  assert (IPC : started (v_out s) id -> in_progress (v_out s) id).
  { intros S. split; auto. intros X. apply IP. apply completed_app. auto. }
  assert (OLD : started (v_out s) id -> (forall i, ~ In (OAccepted o i) l) \/ l = [ORefused None] -> v_installing s = true /\ l <> [ORefused None]).
  { intros S NL.
    apply app_eq_app in E. destruct E as (m & [[E1 E2]|[E1 E2]]).
    - destruct m as [|x m].
      + rewrite app_nil_r in E1. cbn in E2. destruct NL as [NL| ->]; [|discriminate]. destruct (NL id). rewrite <- E2. left. auto.
      + cbn in E2. injection E2 as <- E2. split.
        * apply (OS a o id m); auto. intros X. apply NR. rewrite E2. apply in_or_app. auto.
        * intros ->. apply NR. rewrite E2. apply in_or_app. right. left. auto.
    - destruct NL as [NL|NL].
      + destruct (NL id). rewrite E2. apply in_or_app. right. left. auto.
      + rewrite NL in E2. destruct m as [|x m]; [discriminate|]. injection E2 as _ E2. destruct m; discriminate. }
  assert (NEW : ~ started (v_out s) id -> In (OAccepted o id) l).
  { intros NS. assert (X : In (OAccepted o id) (v_out s ++ l)) by (rewrite E; apply in_or_app; right; left; auto).
    apply in_app_or in X. destruct X as [X|X]; auto. destruct NS. exists o. auto. }
  assert (DEC : started (v_out s) id \/ ~ started (v_out s) id).
  { clear. induction (v_out s) as [|x t IH]; [right; intros [o []]|]. destruct IH as [[o IH]|IH]; [left; exists o; right; auto|].
    destruct x as [o i| | | | | | |]; try (right; intros [o' [H|H]]; [discriminate | apply IH; exists o'; auto]).
    destruct (Nat.eq_dec i id) as [->|N]; [left; exists o; left; auto|].
    right. intros [o' [H|H]]; [congruence | apply IH; exists o'; auto]. }
  destruct SH as [[I1 I2]|[I1|[[I1 [i I2]]|[I1|I1]]]]; auto.
  - rewrite I1. destruct DEC as [S|S]; [apply OLD; auto|]. destruct (I2 o id). auto.
  - destruct DEC as [S|S]; [destruct (I1 id (IPC S))|]. specialize (NEW S). rewrite I2 in NEW. destruct NEW as [X|[]]. congruence.
  - destruct DEC as [S|S]; [destruct (OLD S (or_intror I1)); congruence|]. specialize (NEW S). rewrite I1 in NEW. destruct NEW as [X|[]]. discriminate.
  - rewrite O in I1. destruct (I1 id IP).
Qed.

(** the Operation property says "installing" during an installation which a client or polling asked for, as long as no
    further request to install was refused since *)
Lemma service_operation_set_ok : forall h a o id b, v_out (srun h) = a ++ OAccepted o id :: b -> in_progress (v_out (srun h)) id ->
  o <> ByAuto -> ~ In (ORefused None) b -> v_installing (srun h) = true.
Proof.
  intros h. assert (H : op_ok (srun h)); [|exact H].
  induction h as [|e h IH] using rev_ind.
  - intros a o id b E. destruct a; discriminate.
  - rewrite srun_snoc. apply op_step; auto. apply inv_run.
Qed.

(** a refused request to install makes the service claim to be idle while the installation goes on; its progress is not
    reported any more *)
Lemma service_operation_refuted : exists h id, ~ In EAuto h /\ in_progress (v_out (srun h)) id /\ v_installing (srun h) = false /\
  (forall pct, v_out (srun (h ++ [EThread id (TProgress pct)])) = v_out (srun h)).
Proof.
  exists [EInstall false; EInstall false], 0. split; [|split; [|split]].
  - cbn. intros [H|[H|[]]]; discriminate.
  - split; [exists ByClient; left; reflexivity|]. intros [ok H]. cbn in H. destruct H as [H|[H|[]]]; discriminate.
  - reflexivity.
  - intros pct. reflexivity.
Qed.

(** an automatic installation never sets the Operation property *)
Lemma service_auto_operation_refuted : exists h id, in_progress (v_out (srun h)) id /\ v_installing (srun h) = false /\ ~ In (ORefused None) (v_out (srun h)).
Proof.
  exists [EAuto], 0. split; [|split].
  - split; [exists ByAuto; left; reflexivity|]. intros [ok H]. cbn in H. destruct H as [H|[]]; discriminate.
  - reflexivity.
  - cbn. intros [H|[]]. discriminate.
Qed.

(** an automatic installation while another one runs kills the service, and the running installation *)
Lemma service_auto_abort_refuted : exists h id, in_progress (v_out (srun h)) id /\ v_dead (srun h) = false /\ v_dead (srun (h ++ [EAuto])) = true.
Proof.
  exists [EInstall false], 0. split; [|split]; try reflexivity.
  split; [exists ByClient; left; reflexivity|]. intros [ok H]. cbn in H. destruct H as [H|[]]; discriminate.
Qed.
