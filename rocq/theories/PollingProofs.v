From Verif Require Import Base BaseLemmas Semver Polling.
Open Scope Z_scope.

(** ** delays *)

(** C27: intervals of up to 24 days *)
Lemma c27_delay_ok : forall interval max_interval i m cand inst reb errors,
  parse_intervals interval max_interval = Ok (i, m) ->
  (match interval with Some x => x | None => 86400 end) < 2147484 ->
  (match max_interval with Some x => x | None => 4 * match interval with Some x => x | None => 86400 end end) < 2147484 ->
  i * (Z.of_N errors + 1) < 2 ^ 63 ->
  60000 <= i < m /\
  i = 1000 * match interval with Some x => x | None => 86400 end /\
  normal_delay (mkPC i m cand inst reb) errors = Z.min (i * (Z.of_N errors + 1)) m /\
  i <= normal_delay (mkPC i m cand inst reb) errors <= m.
Proof.
  intros interval max_interval i m cand inst reb errors H HI HM HE. unfold parse_intervals in H.
  set (i0 := match interval with Some x => x | None => 24 * 60 * 60 end) in *.
  change (match interval with Some x => x | None => 86400 end) with i0 in *.
  destruct (Z.ltb_spec i0 60) as [L|L]; [discriminate|].
  set (m0 := match max_interval with Some x => x | None => wrap32 (i0 * 4) end) in *.
  assert (M0 : m0 = match max_interval with Some x => x | None => 4 * i0 end).
  { unfold m0. destruct max_interval; [reflexivity|]. unfold wrap32. rewrite Z.mod_small by lia. lia. }
  destruct (Z.leb_spec m0 i0) as [L2|L2]; [discriminate|]. apply Ok_inj in H. injection H as H1 H2.
  assert (E1 : i = 1000 * i0). { rewrite <- H1. unfold wrap32. rewrite Z.mod_small by lia. lia. }
  assert (E2 : m = 1000 * m0). { rewrite <- H2. unfold wrap32. rewrite Z.mod_small by lia. lia. }
  clear H1 H2. assert (W : normal_delay (mkPC i m cand inst reb) errors = Z.min (i * (Z.of_N errors + 1)) m).
  { unfold normal_delay. cbn [pc_interval_ms pc_max_ms]. f_equal. unfold wrap64. rewrite Z.mod_small; [lia|].
    set (x := i * (Z.of_N errors + 1)) in *. assert (0 <= x) by (unfold x; nia). lia. }
  split; [lia|]. split; [exact E1|]. split; [exact W|]. rewrite W.
  assert (i <= i * (Z.of_N errors + 1)) by nia. lia.
Qed.

(** a weekly interval is accepted and gives a delay of minus three weeks *)
Lemma c27_weekly_refuted : exists i m, parse_intervals (Some (7 * 24 * 3600)) None = Ok (i, m) /\
  forall cand inst reb, normal_delay (mkPC i m cand inst reb) 0 < 0.
Proof. eexists _, _. split; [vm_compute; reflexivity|]. intros. vm_compute. reflexivity. Qed.

(** so that every 10 s the server is polled again *)
Definition quiet (t : Z) : penv := mkEnv false true false true FNoContent t.
Lemma c27_busy_loop_refuted : exists i m, parse_intervals (Some (7 * 24 * 3600)) None = Ok (i, m) /\
  let c := mkPC i m ["higher-semver"] None None in
  let s k := k * 10000000 in
  exists p, prun c "1.0" (pinit 0 3600000) (map (fun k => ETick (s k) (quiet (s k))) [360; 361; 362; 363]) =
    Ok (p, [OAttempt (s 360); OAttempt (s 361); OAttempt (s 362); OAttempt (s 363)]).
Proof. eexists _, _. split; [vm_compute; reflexivity|]. eexists. vm_compute. reflexivity. Qed.

(** ** one dispatch *)

Definition higher (v system : string) : Prop := semver_less_equal v system = Ok false.

Definition candidate (c : pconfig) (system v : string) : Prop :=
  (In "higher-semver" (pc_candidate c) /\ higher v system) \/ (In "different-version" (pc_candidate c) /\ v <> system).
Definition installable (c : pconfig) (system v : string) : Prop :=
  exists l, pc_install c = Some l /\
  ((In "higher-semver" l /\ higher v system) \/ (In "different-version" l /\ v <> system) \/ In "always" l).

Lemma has_in l s : has l s = true <-> In s l.
Proof.
  unfold has. rewrite existsb_exists. split.
  - intros (x & Hx & E). apply String.eqb_eq in E. now subst.
  - intros H. exists s. split; [exact H|apply String.eqb_refl].
Qed.

Lemma crit_ok l v system (b : res bool) : b = (if has l "higher-semver" then higher_semver v system else Ok false) ->
  forall h, b = Ok h -> (h = true <-> In "higher-semver" l /\ higher v system).
Proof.
  intros -> h H. unfold higher_semver, higher in *. destruct (has l "higher-semver") eqn:E.
  - apply has_in in E. destruct (semver_less_equal v system) as [le| |]; try discriminate. cbn in H. apply Ok_inj in H. subst h.
    destruct le; cbn; split; intros K; try discriminate; try (split; auto). destruct K; discriminate.
  - apply Ok_inj in H. subst h. split; [discriminate|]. intros [K _]. apply has_in in K. congruence.
Qed.

Lemma check_candidate_ok c system m b : check_candidate c system m = Ok b ->
  exists v, pm_version m = Some v /\ (b = true <-> candidate c system v).
Proof.
  unfold check_candidate. destruct (pm_version m) as [v|]; [|discriminate]. intros H. exists v. split; [reflexivity|].
  apply bind_ok in H as (h & Hh & H). apply Ok_inj in H. subst b. pose proof (crit_ok _ _ _ _ eq_refl h Hh) as C.
  unfold candidate. rewrite orb_true_iff, andb_true_iff, has_in, C, negb_true_iff, String.eqb_neq. intuition congruence.
Qed.
Lemma check_install_ok c system m : check_install c system m = Ok true ->
  exists v, pm_version m = Some v /\ installable c system v.
Proof.
  unfold check_install, installable. destruct (pc_install c) as [l|]; [|discriminate]. destruct (pm_version m) as [v|]; [|discriminate].
  intros H. exists v. split; [reflexivity|]. exists l. split; [reflexivity|]. apply bind_ok in H as (h & Hh & H). apply Ok_inj in H.
  pose proof (crit_ok _ _ _ _ eq_refl h Hh) as C. rewrite !orb_true_iff, andb_true_iff, !has_in, C, negb_true_iff, String.eqb_neq in H.
  intuition congruence.
Qed.

(** what [poll_step] may do *)
Lemma poll_step_ok c system p f p' r : poll_step c system p f = (p', r) ->
  p_next p' = p_next p /\ p_errors p' = p_errors p /\ p_must_reboot p' = p_must_reboot p /\ p_stopped p' = p_stopped p /\
  (forall h, r = Ok (Some h) ->
     p_installing p' = true /\ p_attempted p' = Some h /\ p_attempted p <> Some h /\
     exists m v, p_manifest p' = Some m /\ pm_hash m = h /\ pm_version m = Some v /\
       (f = FManifest m \/ (f = FNotModified /\ p_manifest p = Some m)) /\
       candidate c system v /\ installable c system v) /\
  ((forall h, r <> Ok (Some h)) -> r <> Abort -> p_installing p' = p_installing p /\ p_attempted p' = p_attempted p).
Proof.
  unfold poll_step. intros H. destruct (fetch p f) as [[m|]| |] eqn:F.
  2,3,4: injection H as <- <-; cbn; repeat split; auto; intros; congruence.
  assert (FM : f = FManifest m \/ (f = FNotModified /\ p_manifest p = Some m)).
  { destruct f; cbn in F; try discriminate; injection F as F; subst; auto. }
  destruct (check_candidate c system m) as [[]| |] eqn:C.
  2,3,4: injection H as <- <-; cbn; repeat split; auto; intros; congruence.
  destruct (check_install c system m) as [[]| |] eqn:I.
  2,3,4: injection H as <- <-; cbn; repeat split; auto; intros; congruence.
  destruct (match p_attempted p with Some h => String.eqb (pm_hash m) h | None => false end) eqn:A.
  { injection H as <- <-; cbn; repeat split; auto; intros; congruence. }
  injection H as <- <-. cbn. repeat split; auto; try congruence.
  - apply Ok_inj in H. injection H as <-. destruct (p_attempted p) as [a|]; [|discriminate]. apply String.eqb_neq in A. congruence.
  - apply check_candidate_ok in C as (v & V & C). apply check_install_ok in I as (v' & V' & I). rewrite V in V'. injection V' as <-.
    apply Ok_inj in H. injection H as <-. exists m, v. repeat split; auto. now apply C.
Qed.

(** C27: when an installation or a reboot is started, and what is polled *)
Lemma c27_gate_ok : forall c system p now e p' out, dispatch c system p now e = Ok (p', out) ->
  (forall t h, In (OInstall t h) out ->
     t = now /\ p_next p <= now /\ p_installing p = false /\ e_busy e = false /\ e_good e = true /\ e_inhibited e = false /\
     p_must_reboot p = false /\ p_attempted p <> Some h /\
     exists m v, pm_hash m = h /\ pm_version m = Some v /\
       (e_fetch e = FManifest m \/ (e_fetch e = FNotModified /\ p_manifest p = Some m)) /\
       candidate c system v /\ installable c system v) /\
  (forall t, In (OReboot t) out ->
     t = now /\ p_next p <= now /\ p_installing p = false /\ e_busy e = false /\ e_good e = true /\ e_inhibited e = false /\ p_must_reboot p = true) /\
  (forall t, In (OAttempt t) out ->
     t = now /\ p_next p <= now /\ p_installing p = false /\ e_busy e = false /\ e_good e = true /\ e_inhibited e = false).
Proof.
  intros c system p now e p' out H. unfold dispatch in H.
  assert (NIL : forall q, Ok (q, []) = Ok (p', out) -> out = []) by (intros q K; apply Ok_inj in K; injection K; auto).
  destruct (p_stopped p). { apply NIL in H. subst. repeat split; intros; contradiction. }
  destruct (Z.ltb_spec now (p_next p)) as [L|L]. { apply NIL in H. subst. repeat split; intros; contradiction. }
  destruct (p_installing p) eqn:EI. { apply NIL in H. subst. repeat split; intros; contradiction. }
  destruct (e_busy e). { apply NIL in H. subst. repeat split; intros; contradiction. }
  destruct (e_good e); cbn [negb] in H. 2: { apply NIL in H. subst. repeat split; intros; contradiction. }
  destruct (e_inhibited e). { apply NIL in H. subst. repeat split; intros; contradiction. }
  clear NIL. destruct (p_must_reboot p) eqn:MR.
  { assert (out = [OReboot now]) by (destruct (e_reboot_ok e); apply Ok_inj in H; injection H; auto). subst out.
    split; [intros t h [K|[]]; discriminate|]. split; [|intros t [K|[]]; discriminate].
    intros t [K|[]]. injection K as <-. repeat split; auto. }
  destruct (poll_step c system p (e_fetch e)) as [q r] eqn:E. apply poll_step_ok in E as (_ & _ & _ & _ & E & _).
  assert (O : out = OAttempt now :: match r with Ok (Some h) => [OInstall now h] | _ => [] end).
  { destruct r as [[h|]| |]; try discriminate; apply Ok_inj in H; injection H; auto. }
  subst out. clear H. split; [|split].
  - intros t h [K|K]; [discriminate|]. destruct r as [[h'|]| |]; try contradiction. destruct K as [K|[]]. injection K as <- <-.
    destruct (E h' eq_refl) as (_ & _ & A & m & v & _ & M1 & M2 & M3 & M4 & M5). repeat split; auto. exists m, v. auto.
  - intros t [K|K]; [discriminate|]. destruct r as [[h'|]| |]; try contradiction. destruct K as [K|[]]. discriminate.
  - intros t [K|K]; [injection K as <-; auto 10|]. destruct r as [[h'|]| |]; try contradiction. destruct K as [K|[]]. discriminate.
Qed.

(** ** histories *)

Definition installs (l : list pout) : list string :=
  flat_map (fun o => match o with OInstall _ h => [h] | _ => [] end) l.
Definition attempts (l : list pout) : list Z :=
  flat_map (fun o => match o with OAttempt t => [t] | _ => [] end) l.

Lemma installs_app a b : installs (a ++ b) = installs a ++ installs b.
Proof. apply flat_map_app. Qed.

Inductive no_repeat : option string -> list string -> Prop :=
| nr_nil o : no_repeat o []
| nr_cons o h l : o <> Some h -> no_repeat (Some h) l -> no_repeat o (h :: l).

Lemma pstep_installs c system p ev p' out : pstep c system p ev = Ok (p', out) ->
  (installs out = [] /\ p_attempted p' = p_attempted p) \/
  (exists h, installs out = [h] /\ p_attempted p' = Some h /\ p_attempted p <> Some h).
Proof.
  destruct ev as [now e|now f s a|now]; cbn [pstep]; intros H.
  2: { apply Ok_inj in H. injection H as <- <-. left. destruct (p_installing p); auto. }
  2: { apply Ok_inj in H. injection H as <- <-. left. auto. }
  unfold dispatch in H.
  assert (NIL : forall q, p_attempted q = p_attempted p -> Ok (q, []) = Ok (p', out) ->
    (installs out = [] /\ p_attempted p' = p_attempted p) \/
    (exists h, installs out = [h] /\ p_attempted p' = Some h /\ p_attempted p <> Some h)).
  { intros q Q K. apply Ok_inj in K. injection K as <- <-. auto. }
  destruct (p_stopped p); [eapply NIL; [|exact H]; reflexivity|].
  destruct (now <? p_next p); [eapply NIL; [|exact H]; reflexivity|].
  destruct (p_installing p); [eapply NIL; [|exact H]; reflexivity|].
  destruct (e_busy e); [eapply NIL; [|exact H]; reflexivity|].
  destruct (e_good e); cbn [negb] in H; [|eapply NIL; [|exact H]; reflexivity].
  destruct (e_inhibited e); [eapply NIL; [|exact H]; reflexivity|]. clear NIL.
  destruct (p_must_reboot p).
  { destruct (e_reboot_ok e); apply Ok_inj in H; injection H as <- <-; left; auto. }
  destruct (poll_step c system p (e_fetch e)) as [q r] eqn:E. apply poll_step_ok in E as (_ & _ & _ & _ & E1 & E2).
  assert (A : forall x y z, p_attempted (if p_installing q then set_errors q x else reschedule (set_errors q x) y z) = p_attempted q)
    by (intros; destruct (p_installing q); reflexivity).
  destruct r as [[h|]| |]; try discriminate; apply Ok_inj in H; injection H as H <-; cbn [installs flat_map app].
  - right. exists h. split; [reflexivity|]. destruct (E1 h eq_refl) as (_ & K1 & K2 & _). split; [|exact K2].
    rewrite <- H. cbn [set_errors p_installing]. rewrite A. exact K1.
  - left. split; [reflexivity|]. rewrite <- H. cbn [set_errors p_installing]. rewrite A. apply E2; congruence.
  - left. split; [reflexivity|]. rewrite <- H. cbn [set_errors p_installing]. rewrite A. apply E2; congruence.
Qed.

(** C27: while the service runs, no manifest is installed automatically twice in a row *)
Lemma c27_no_repeat_ok : forall c system now first h p out, prun c system (pinit now first) h = Ok (p, out) ->
  no_repeat None (installs out).
Proof.
  intros c system now first h p out. change None with (p_attempted (pinit now first)).
  generalize (pinit now first). intros p0. revert p0 p out. induction h as [|ev h IH]; intros p0 p out H; cbn [prun] in H.
  - apply Ok_inj in H. injection H as <- <-. constructor.
  - apply bind_ok in H as ([p1 o1] & H1 & H). apply bind_ok in H as ([p2 o2] & H2 & H). apply Ok_inj in H. injection H as <- <-.
    rewrite installs_app. apply IH in H2. apply pstep_installs in H1 as [(-> & A)|(x & -> & A1 & A2)]; cbn [app].
    + now rewrite <- A.
    + constructor; [exact A2|]. now rewrite <- A1.
Qed.

(** ** spacing of the attempts *)

(** no explicit request to poll via D-Bus *)
Fixpoint no_request (h : list pevent) : Prop :=
  match h with
  | [] => True
  | ERequest _ :: _ => False
  | _ :: h => no_request h
  end.

Lemma attempts_app a b : attempts (a ++ b) = attempts a ++ attempts b.
Proof. apply flat_map_app. Qed.

Lemma dispatch_wait c system p now e p' out X : dispatch c system p now e = Ok (p', out) -> p_installing p = false -> X <= p_next p ->
  (attempts out = [] /\ p_installing p' = false /\ X <= p_next p') \/ (exists r, attempts out = now :: r /\ X <= now).
Proof.
  intros H HI HX. unfold dispatch in H. rewrite HI in H.
  destruct (p_stopped p). { apply Ok_inj in H. injection H as <- <-. auto. }
  destruct (Z.ltb_spec now (p_next p)) as [L|L]. { apply Ok_inj in H. injection H as <- <-. auto. }
  assert (RS : X <= p_next (reschedule p now short_delay)) by (cbn; unfold short_delay; lia).
  destruct (e_busy e). { apply Ok_inj in H. injection H as <- <-. auto. }
  destruct (e_good e); cbn [negb] in H. 2: { apply Ok_inj in H. injection H as <- <-. auto. }
  destruct (e_inhibited e). { apply Ok_inj in H. injection H as <- <-. auto. }
  destruct (p_must_reboot p). { destruct (e_reboot_ok e); apply Ok_inj in H; injection H as <- <-; auto. }
  right. destruct (poll_step c system p (e_fetch e)) as [q r]. destruct r as [o| |]; [| |discriminate]; apply Ok_inj in H; injection H as _ <-.
  - destruct o; (eexists; split; [reflexivity|lia]).
  - eexists; split; [reflexivity|lia].
Qed.

Lemma wait_ok c system h : forall p p' out X, no_request h -> p_installing p = false -> X <= p_next p ->
  prun c system p h = Ok (p', out) -> forall s r, attempts out = s :: r -> X <= s.
Proof.
  induction h as [|ev h IH]; intros p p' out X NR HI HX H s r HA; cbn [prun] in H.
  - apply Ok_inj in H. injection H as <- <-. discriminate.
  - apply bind_ok in H as ([p1 o1] & H1 & H). apply bind_ok in H as ([p2 o2] & H2 & H). apply Ok_inj in H. injection H as <- <-.
    rewrite attempts_app in HA. destruct ev as [now e|now f sl a|now]; cbn [pstep no_request] in *; [| |contradiction].
    + destruct (dispatch_wait _ _ _ _ _ _ _ X H1 HI HX) as [(A1 & A2 & A3)|(r1 & A1 & A2)].
      * rewrite A1 in HA. exact (IH _ _ _ X NR A2 A3 H2 s r HA).
      * rewrite A1 in HA. injection HA as <- _. exact A2.
    + apply Ok_inj in H1. injection H1 as <- <-. rewrite HI in H2. exact (IH _ _ _ X NR HI HX H2 s r HA).
Qed.

(** C27: after an attempt that did not start an installation, the next one comes no earlier
    than the delay which follows from the number of errors in a row *)
Lemma c27_spacing_ok : forall c system p now e p1 o1 h p2 o2 s r,
  dispatch c system p now e = Ok (p1, OAttempt now :: o1) -> installs o1 = [] -> now <= e_later e ->
  no_request h -> prun c system p1 h = Ok (p2, o2) -> attempts o2 = s :: r ->
  (p_errors p1 = 0%N \/ p_errors p1 = (p_errors p + 1)%N) /\ now + normal_delay c (p_errors p1) * 1000 <= s.
Proof.
  intros c system p now e p1 o1 h p2 o2 s r H HN HL NR H2 HA. unfold dispatch in H.
  destruct (p_stopped p); [discriminate|]. destruct (now <? p_next p); [discriminate|].
  destruct (p_installing p) eqn:EI; [discriminate|]. destruct (e_busy e); [discriminate|].
  destruct (negb (e_good e)); [discriminate|]. destruct (e_inhibited e); [discriminate|].
  destruct (p_must_reboot p). { destruct (e_reboot_ok e); discriminate. }
  destruct (poll_step c system p (e_fetch e)) as [q x] eqn:E. apply poll_step_ok in E as (E1 & E2 & _ & _ & _ & E3).
  assert (X : p1 = (let p := set_errors q (match x with Err => p_errors q + 1 | _ => 0 end)%N in
                   if p_installing p then p else reschedule p (e_later e) (normal_delay c (p_errors p))) /\ (forall h, x <> Ok (Some h)) /\ x <> Abort).
  { destruct x as [[h'|]| |]; try discriminate; apply Ok_inj in H; injection H as <- <-; try discriminate; repeat split; congruence. }
  destruct X as (-> & X1 & X2). destruct (E3 X1 X2) as [I1 _]. rewrite EI in I1.
  cbn zeta in *. cbn [set_errors p_installing] in *. rewrite I1 in *.
  cbn [reschedule p_errors set_errors] in *.
  assert (PE : (match x with Err => p_errors q + 1 | _ => 0 end)%N = 0%N \/ (match x with Err => p_errors q + 1 | _ => 0 end)%N = (p_errors p + 1)%N)
    by (rewrite E2; destruct x; auto).
  split; [exact PE|].
  set (e' := (match x with Err => p_errors q + 1 | _ => 0 end)%N) in *. clearbody e'.
  assert (e_later e + normal_delay c e' * 1000 <= s); [|lia].
  eapply wait_ok; [exact NR| | |exact H2|exact HA]; cbn; [exact I1|lia].
Qed.

(** ** reboots *)
Definition reboot_wanted (c : pconfig) (failed slots artifacts : bool) : Prop :=
  exists l, pc_reboot c = Some l /\
  if failed then In "failed-update" l
  else (In "updated-slots" l /\ slots = true) \/ (In "updated-artifacts" l /\ artifacts = true).

Lemma check_reboot_ok c f s a : check_reboot c f s a = true <-> reboot_wanted c f s a.
Proof.
  unfold check_reboot, reboot_wanted. destruct (pc_reboot c) as [l|]; [|split; [discriminate|intros (l & K & _); discriminate]].
  transitivity (if f then In "failed-update" l else (In "updated-slots" l /\ s = true) \/ (In "updated-artifacts" l /\ a = true)).
  2: { split; [eauto|]. intros (l' & K & R). injection K as <-. exact R. }
  destruct f.
  - rewrite andb_true_r. destruct (has l "failed-update") eqn:E; [apply has_in in E; tauto|]. cbn [negb andb].
    split; [discriminate|]. intros K. apply has_in in K. congruence.
  - rewrite !andb_false_r, orb_true_iff, !andb_true_iff, !has_in. reflexivity.
Qed.

Lemma pstep_reboot c system p ev p' out : pstep c system p ev = Ok (p', out) -> p_must_reboot p = false ->
  (forall t, ~ In (OReboot t) out) /\
  (p_must_reboot p' = true -> exists now f s a, ev = EDone now f s a /\ p_installing p = true /\ reboot_wanted c f s a).
Proof.
  intros H HM. destruct ev as [now e|now f s a|now]; cbn [pstep] in H.
  - pose proof (c27_gate_ok _ _ _ _ _ _ _ H) as (_ & G & _). split.
    { intros t K. apply G in K. intuition congruence. }
    intros K. exfalso. unfold dispatch in H. rewrite HM in H.
    destruct (p_stopped p). { apply Ok_inj in H. injection H as <- _. congruence. }
    destruct (now <? p_next p). { apply Ok_inj in H. injection H as <- _. congruence. }
    destruct (p_installing p). { apply Ok_inj in H. injection H as <- _. congruence. }
    destruct (e_busy e). { apply Ok_inj in H. injection H as <- _. cbn in K. congruence. }
    destruct (negb (e_good e)). { apply Ok_inj in H. injection H as <- _. cbn in K. congruence. }
    destruct (e_inhibited e). { apply Ok_inj in H. injection H as <- _. cbn in K. congruence. }
    destruct (poll_step c system p (e_fetch e)) as [q x] eqn:E. apply poll_step_ok in E as (_ & _ & E1 & _).
    destruct x as [x| |]; [| |discriminate]; apply Ok_inj in H; injection H as <- _; cbn in K; destruct (p_installing q); cbn in K; congruence.
  - apply Ok_inj in H. injection H as <- <-. split; [auto|]. destruct (p_installing p) eqn:EI; [|congruence]. cbn. rewrite HM. cbn [orb].
    intros K. exists now, f, s, a. repeat split; auto. now apply check_reboot_ok.
  - apply Ok_inj in H. injection H as <- <-. split; [auto|]. cbn. congruence.
Qed.

(** C27: a reboot is only triggered after an installation started by polling has finished in
    a way the configuration asks to reboot for *)
Lemma c27_reboot_ok : forall c system now first h p out t, prun c system (pinit now first) h = Ok (p, out) -> In (OReboot t) out ->
  exists now f s a, In (EDone now f s a) h /\ reboot_wanted c f s a.
Proof.
  intros c system now first h p out t. assert (M : p_must_reboot (pinit now first) = false) by reflexivity. revert M.
  generalize (pinit now first). intros p0. revert p0 p out. induction h as [|ev h IH]; intros p0 p out M H HR; cbn [prun] in H.
  - apply Ok_inj in H. injection H as <- <-. contradiction.
  - apply bind_ok in H as ([p1 o1] & H1 & H). apply bind_ok in H as ([p2 o2] & H2 & H). apply Ok_inj in H. injection H as <- <-.
    destruct (pstep_reboot _ _ _ _ _ _ H1 M) as [N W]. apply in_app_iff in HR as [HR|HR]; [exfalso; eapply N, HR|].
    destruct (p_must_reboot p1) eqn:M1.
    + destruct (W eq_refl) as (now' & f & s & a & -> & _ & R). exists now', f, s, a. split; [now left|exact R].
    + destruct (IH _ _ _ M1 H2 HR) as (now' & f & s & a & K & R). exists now', f, s, a. split; [now right|exact R].
Qed.

(** a polled bundle whose manifest has no version aborts the service *)
Lemma c27_no_version_refuted : exists c p now e, pc_candidate c = ["higher-semver"] /\ dispatch c "1.0" p now e = Abort.
Proof.
  exists (mkPC 60000 240000 ["higher-semver"] None None), (pinit 0 0), 0, (mkEnv false true false true (FManifest (mkPM None "h")) 0).
  split; reflexivity.
Qed.

(** ** polling does what it is for *)

(** the poll is due, nothing else runs and nothing forbids it *)
Definition ready (p : pctx) (now : Z) (e : penv) : Prop :=
  p_stopped p = false /\ p_next p <= now /\ p_installing p = false /\
  e_busy e = false /\ e_good e = true /\ e_inhibited e = false.

(** the versions can be compared as semantic versions *)
Definition comparable (v system : string) : Prop := exists b, semver_less_equal v system = Ok b.

Lemma higher_cmp v system l : comparable v system ->
  exists h, (if has l "higher-semver" then higher_semver v system else Ok false) = Ok h /\
    (h = true <-> In "higher-semver" l /\ higher v system).
Proof.
  intros (b & B). unfold higher_semver, higher. rewrite B. cbn [bind].
  destruct (has l "higher-semver") eqn:E.
  - exists (negb b). split; [reflexivity|]. apply has_in in E. destruct b; cbn [negb].
    + split; [discriminate|]. intros [_ K]. apply Ok_inj in K. discriminate.
    + split; auto.
  - exists false. split; [reflexivity|]. split; [discriminate|]. intros [K _]. apply has_in in K. congruence.
Qed.

Lemma candidate_true c system m v : pm_version m = Some v -> comparable v system -> candidate c system v ->
  check_candidate c system m = Ok true.
Proof.
  intros V C K. unfold check_candidate. rewrite V.
  destruct (higher_cmp v system (pc_candidate c) C) as (h & -> & Hh). cbn [bind]. f_equal.
  apply orb_true_iff. destruct K as [K|[K1 K2]]; [left; apply Hh, K|right].
  apply andb_true_iff. split; [now apply has_in|]. apply negb_true_iff, String.eqb_neq. congruence.
Qed.

Lemma install_true c system m v : pm_version m = Some v -> comparable v system -> installable c system v ->
  check_install c system m = Ok true.
Proof.
  intros V C (l & L & K). unfold check_install. rewrite L, V.
  destruct (higher_cmp v system l C) as (h & -> & Hh). cbn [bind]. f_equal.
  rewrite !orb_true_iff. destruct K as [K|[[K1 K2]|K]]; [left; left; apply Hh, K|left; right|right].
  - apply andb_true_iff. split; [now apply has_in|]. apply negb_true_iff, String.eqb_neq. congruence.
  - now apply has_in.
Qed.

(** C27: an update that meets the criteria and was not just attempted is installed *)
Lemma c27_installs_ok : forall c system p now e m v,
  ready p now e -> p_must_reboot p = false ->
  (e_fetch e = FManifest m \/ (e_fetch e = FNotModified /\ p_manifest p = Some m)) ->
  pm_version m = Some v -> comparable v system -> candidate c system v -> installable c system v ->
  p_attempted p <> Some (pm_hash m) ->
  exists p', dispatch c system p now e = Ok (p', [OAttempt now; OInstall now (pm_hash m)]) /\
    p_installing p' = true /\ p_attempted p' = Some (pm_hash m) /\ p_errors p' = 0%N.
Proof.
  intros c system p now e m v (R1 & R2 & R3 & R4 & R5 & R6) HM HF V C K1 K2 HA.
  unfold dispatch. rewrite R1, R3, R4, R5, R6, HM. apply Z.ltb_ge in R2. rewrite R2. cbn [negb].
  assert (E : poll_step c system p (e_fetch e) =
     (mkP (p_next p) true (p_errors p) true (Some (pm_hash m)) (Some m) (p_must_reboot p) (p_stopped p), Ok (Some (pm_hash m)))).
  { unfold poll_step. assert (fetch p (e_fetch e) = Ok (Some m)) as ->.
    { destruct HF as [-> |[-> Hm]]; [reflexivity|]. cbn. now rewrite Hm. }
    rewrite (candidate_true c system m v V C K1), (install_true c system m v V C K2).
    destruct (p_attempted p) as [h|]; [|reflexivity].
    assert (String.eqb (pm_hash m) h = false) as -> by (apply String.eqb_neq; congruence). reflexivity. }
  rewrite E. eexists. split; [reflexivity|]. cbn. auto.
Qed.

(** C27: when an installation started by polling has finished, polling goes on after
    the short delay, and a reboot is scheduled if and only if it is wanted *)
Lemma c27_done_ok : forall c system p now f s a p' out,
  pstep c system p (EDone now f s a) = Ok (p', out) -> p_installing p = true ->
  out = [] /\ p_installing p' = false /\ p_next p' = now + 30 * 1000000 /\ p_attempted p' = p_attempted p /\
  (p_must_reboot p' = true <-> p_must_reboot p = true \/ reboot_wanted c f s a).
Proof.
  intros c system p now f s a p' out H HI. cbn [pstep] in H. rewrite HI in H. apply Ok_inj in H. injection H as <- <-.
  cbn. split; [reflexivity|]. split; [reflexivity|]. split; [unfold short_delay; lia|]. split; [reflexivity|].
  rewrite orb_true_iff, check_reboot_ok. reflexivity.
Qed.

(** C27: a scheduled reboot is done at the next opportunity instead of another poll, and
    tried again if the command fails; after it nothing happens any more *)
Lemma c27_reboots_ok : forall c system p now e, ready p now e -> p_must_reboot p = true ->
  exists p', dispatch c system p now e = Ok (p', [OReboot now]) /\
    if e_reboot_ok e then forall h, exists p2, prun c system p' h = Ok (p2, [])
    else p_next p' = now + 30 * 1000000 /\ p_must_reboot p' = true /\ p_stopped p' = false.
Proof.
  intros c system p now e (R1 & R2 & R3 & R4 & R5 & R6) HM.
  unfold dispatch. rewrite R1, R3, R4, R5, R6, HM. apply Z.ltb_ge in R2. rewrite R2. cbn [negb].
  destruct (e_reboot_ok e).
  - eexists. split; [reflexivity|].
    match goal with |- forall h, exists p2, prun c system ?q h = _ => assert (Q : p_stopped q = true /\ p_installing q = false) by (cbn; auto); revert Q; generalize q end.
    intros q Q h. revert q Q. induction h as [|ev h IH]; intros q [Q1 Q2]; cbn [prun]; [eauto|].
    destruct ev as [t e'|t f s a|t]; cbn [pstep].
    + unfold dispatch. rewrite Q1. cbn [bind]. destruct (IH q (conj Q1 Q2)) as (p2 & P2). exists p2. now rewrite P2.
    + rewrite Q2. cbn [bind]. destruct (IH q (conj Q1 Q2)) as (p2 & P2). exists p2. now rewrite P2.
    + cbn [bind]. destruct (IH (poll_request q t) (conj Q1 Q2)) as (p2 & P2). exists p2. now rewrite P2.
  - eexists. split; [reflexivity|]. cbn. unfold short_delay. split; [lia|]. auto.
Qed.
