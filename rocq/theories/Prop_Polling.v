(** Property theorems for polling (C27). *)
From Verif Require Import Base Semver Polling PollingProofs.
Open Scope Z_scope.

(** the back-off delay *)
Theorem C27_delay : forall interval max_interval i m cand inst reb errors,
  parse_intervals interval max_interval = Ok (i, m) ->
  (match interval with Some x => x | None => 86400 end) < 2147484 ->
  (match max_interval with Some x => x | None => 4 * match interval with Some x => x | None => 86400 end end) < 2147484 ->
  i * (Z.of_N errors + 1) < 2 ^ 63 ->
  60000 <= i < m /\
  i = 1000 * match interval with Some x => x | None => 86400 end /\
  normal_delay (mkPC i m cand inst reb) errors = Z.min (i * (Z.of_N errors + 1)) m /\
  i <= normal_delay (mkPC i m cand inst reb) errors <= m.
Proof. exact c27_delay_ok. Qed.
Print Assumptions C27_delay.
(** the attempts of a history keep that delay *)
Theorem C27_spacing : forall c system p now e p1 o1 h p2 o2 s r,
  dispatch c system p now e = Ok (p1, OAttempt now :: o1) -> installs o1 = [] -> now <= e_later e ->
  no_request h -> prun c system p1 h = Ok (p2, o2) -> attempts o2 = s :: r ->
  (p_errors p1 = 0%N \/ p_errors p1 = (p_errors p + 1)%N) /\ now + normal_delay c (p_errors p1) * 1000 <= s.
Proof. exact c27_spacing_ok. Qed.
Print Assumptions C27_spacing.
(** conditions for polling, installing and rebooting *)
Theorem C27_gate : forall c system p now e p' out, dispatch c system p now e = Ok (p', out) ->
  (forall t h, In (OInstall t h) out ->
     t = now /\ p_next p <= now /\ p_installing p = false /\ e_busy e = false /\ e_good e = true /\ e_inhibited e = false /\
     p_must_reboot p = false /\ p_attempted p <> Some h /\
     exists m v, pm_hash m = h /\ pm_version m = Some v /\
       (e_fetch e = FManifest m \/ (e_fetch e = FNotModified /\ p_manifest p = Some m)) /\
       candidate c system v /\ installable c system v) /\
  (forall t, In (OReboot t) out ->
     t = now /\ p_next p <= now /\ p_installing p = false /\ e_busy e = false /\ e_good e = true /\ e_inhibited e = false /\ p_must_reboot p = true) /\
  (forall t, In (OAttempt t) out ->
     t = now /\ p_next p <= now /\ p_installing p = false /\ e_busy e = false /\ e_good e = true /\ e_inhibited e = false).
Proof. exact c27_gate_ok. Qed.
Print Assumptions C27_gate.
Theorem C27_no_repeat : forall c system now first h p out, prun c system (pinit now first) h = Ok (p, out) ->
  no_repeat None (installs out).
Proof. exact c27_no_repeat_ok. Qed.
Print Assumptions C27_no_repeat.
Theorem C27_reboot : forall c system now first h p out t, prun c system (pinit now first) h = Ok (p, out) -> In (OReboot t) out ->
  exists now f s a, In (EDone now f s a) h /\ reboot_wanted c f s a.
Proof. exact c27_reboot_ok. Qed.
Print Assumptions C27_reboot.
(** an update that meets the criteria is installed, the reboot wanted afterwards is done, once *)
Theorem C27_installs : forall c system p now e m v,
  ready p now e -> p_must_reboot p = false ->
  (e_fetch e = FManifest m \/ (e_fetch e = FNotModified /\ p_manifest p = Some m)) ->
  pm_version m = Some v -> comparable v system -> candidate c system v -> installable c system v ->
  p_attempted p <> Some (pm_hash m) ->
  exists p', dispatch c system p now e = Ok (p', [OAttempt now; OInstall now (pm_hash m)]) /\
    p_installing p' = true /\ p_attempted p' = Some (pm_hash m) /\ p_errors p' = 0%N.
Proof. exact c27_installs_ok. Qed.
Print Assumptions C27_installs.
Theorem C27_done : forall c system p now f s a p' out,
  pstep c system p (EDone now f s a) = Ok (p', out) -> p_installing p = true ->
  out = [] /\ p_installing p' = false /\ p_next p' = now + 30 * 1000000 /\ p_attempted p' = p_attempted p /\
  (p_must_reboot p' = true <-> p_must_reboot p = true \/ reboot_wanted c f s a).
Proof. exact c27_done_ok. Qed.
Print Assumptions C27_done.
Theorem C27_reboots : forall c system p now e, ready p now e -> p_must_reboot p = true ->
  exists p', dispatch c system p now e = Ok (p', [OReboot now]) /\
    if e_reboot_ok e then forall h, exists p2, prun c system p' h = Ok (p2, [])
    else p_next p' = now + 30 * 1000000 /\ p_must_reboot p' = true /\ p_stopped p' = false.
Proof. exact c27_reboots_ok. Qed.
Print Assumptions C27_reboots.
Theorem C27_weekly_refuted : exists i m, parse_intervals (Some (7 * 24 * 3600)) None = Ok (i, m) /\
  forall cand inst reb, normal_delay (mkPC i m cand inst reb) 0 < 0.
Proof. exact c27_weekly_refuted. Qed.
Print Assumptions C27_weekly_refuted.
Theorem C27_busy_loop_refuted : exists i m, parse_intervals (Some (7 * 24 * 3600)) None = Ok (i, m) /\
  let c := mkPC i m ["higher-semver"] None None in
  let s k := k * 10000000 in
  exists p, prun c "1.0" (pinit 0 3600000) (map (fun k => ETick (s k) (quiet (s k))) [360; 361; 362; 363]) =
    Ok (p, [OAttempt (s 360); OAttempt (s 361); OAttempt (s 362); OAttempt (s 363)]).
Proof. exact c27_busy_loop_refuted. Qed.
Print Assumptions C27_busy_loop_refuted.
Theorem C27_no_version_refuted : exists c p now e, pc_candidate c = ["higher-semver"] /\ dispatch c "1.0" p now e = Abort.
Proof. exact c27_no_version_refuted. Qed.
Print Assumptions C27_no_version_refuted.

(** non-vacuity: an hourly poll finds version 2.0, installs it, reboots; errors delay polls *)
Definition ex_poll : pconfig := mkPC 3600000 14400000 ["higher-semver"] (Some ["always"]) (Some ["updated-slots"]).
Definition ex_min (m : Z) : Z := m * 60000000.
Definition ex_envf (f : fetched) (t : Z) : penv := mkEnv false true false true f t.
Definition ex_tick (m : Z) (f : fetched) : pevent := ETick (ex_min m) (ex_envf f (ex_min m)).
Example ex_poll_run : exists p,
  prun ex_poll "1.0" (pinit 0 1800000)
    [ex_tick 10 FFailed; ex_tick 30 FFailed; ex_tick 100 FNoContent; ex_tick 150 FNoContent;
     ex_tick 210 (FManifest (mkPM (Some "2.0") "h2")); ex_tick 215 FNotModified; EDone (ex_min 220) true true false; ex_tick 221 FNotModified;
     ex_tick 281 (FManifest (mkPM (Some "3.0") "h3")); EDone (ex_min 290) false true false; ex_tick 291 FNotModified] =
  Ok (p, [OAttempt (ex_min 30); OAttempt (ex_min 150); OAttempt (ex_min 210); OInstall (ex_min 210) "h2";
          OAttempt (ex_min 221); OAttempt (ex_min 281); OInstall (ex_min 281) "h3"; OReboot (ex_min 291)]) /\ p_stopped p = true.
Proof. eexists. split; vm_compute; reflexivity. Qed.
Example ex_intervals : parse_intervals None None = Ok (86400000, 345600000) /\ parse_intervals (Some 60) (Some 61) = Ok (60000, 61000).
Proof. split; reflexivity. Qed.
