(** Model of src/polling.c and of the [polling] section of the system configuration
    (src/config_file.c:754-857).

    Not modelled: D-Bus status properties and messages, the mock speed-up used by tests.
    Times are microseconds of CLOCK_BOOTTIME. *)
From Verif Require Import Base Semver.
Open Scope Z_scope.

(** gint arithmetic: signed overflow is undefined in C; here it wraps around, which is what
    the compiled multiplication does *)
Definition wrap32 (x : Z) : Z := (x + 2 ^ 31) mod 2 ^ 32 - 2 ^ 31.
Definition wrap64 (x : Z) : Z := (x + 2 ^ 63) mod 2 ^ 64 - 2 ^ 63.

(** config_file.c:808-839: interval-sec and max-interval-sec (None: key not given; the values
    are gints); result: (polling_interval_ms, polling_max_interval_ms) *)
Definition parse_intervals (interval max_interval : option Z) : res (Z * Z) :=
  let i := match interval with Some i => i | None => 24 * 60 * 60 end in
  if i <? 60 then Err else
  let m := match max_interval with Some m => m | None => wrap32 (i * 4) end in
  if m <=? i then Err else
  Ok (wrap32 (i * 1000), wrap32 (m * 1000)).

Record pconfig := mkPC {
  pc_interval_ms : Z;
  pc_max_ms : Z;
  pc_candidate : list string;          (* candidate-criteria, with default *)
  pc_install : option (list string);   (* install-criteria *)
  pc_reboot : option (list string)     (* reboot-criteria *)
}.

(** the parts of a manifest polling looks at *)
Record pmanifest := mkPM { pm_version : option string; pm_hash : string }.

(** polling.c:17-40 RPollingContext *)
Record pctx := mkP {
  p_next : Z;
  p_installing : bool;
  p_errors : N;
  p_available : bool;
  p_attempted : option string;
  p_manifest : option pmanifest;
  p_must_reboot : bool;
  p_stopped : bool                     (* the GSource was removed *)
}.

Definition reschedule (p : pctx) (now delay_ms : Z) : pctx :=
  mkP (now + delay_ms * 1000) (p_installing p) (p_errors p) (p_available p) (p_attempted p) (p_manifest p) (p_must_reboot p) (p_stopped p).

(** polling.c:56-75: POLLING_DELAY_NORMAL.  gint64 * guint64 is an unsigned multiplication. *)
Definition normal_delay (c : pconfig) (errors : N) : Z :=
  Z.min (wrap64 (pc_interval_ms c * (Z.of_N errors + 1))) (pc_max_ms c).
Definition short_delay : Z := 30 * 1000.

(** result of check_bundle on the polling URL *)
Inductive fetched := FNoContent | FNotModified | FFailed | FNoManifest | FManifest (m : pmanifest).

(** polling.c:97-147 polling_fetch: the new manifest field *)
Definition fetch (p : pctx) (f : fetched) : res (option pmanifest) :=
  match f with
  | FNoContent => Ok None
  | FNotModified => Ok (p_manifest p)
  | FFailed | FNoManifest => Err
  | FManifest m => Ok (Some m)
  end.

Definition has (l : list string) (s : string) : bool := existsb (String.eqb s) l.

(** polling.c:161-171 and 207-217: one criterion; Ok true = it applies *)
Definition higher_semver (update system : string) : res bool :=
  do le <- semver_less_equal update system ;; Ok (negb le).

(** polling.c:149-184 polling_check_candidate_criteria *)
Definition check_candidate (c : pconfig) (system : string) (m : pmanifest) : res bool :=
  match pm_version m with
  | None => Abort                                                   (* g_assert(update_ver) *)
  | Some v =>
      do h <- (if has (pc_candidate c) "higher-semver" then higher_semver v system else Ok false) ;;
      Ok (h || (has (pc_candidate c) "different-version" && negb (String.eqb system v)))
  end.

(** polling.c:186-229 polling_check_install_criteria *)
Definition check_install (c : pconfig) (system : string) (m : pmanifest) : res bool :=
  match pc_install c with
  | None => Ok false
  | Some l =>
      match pm_version m with
      | None => Abort
      | Some v =>
          do h <- (if has l "higher-semver" then higher_semver v system else Ok false) ;;
          Ok (h || (has l "different-version" && negb (String.eqb system v)) || has l "always")
      end
  end.

(** polling.c:231-261 polling_check_reboot_criteria *)
Definition check_reboot (c : pconfig) (failed updated_slots updated_artifacts : bool) : bool :=
  match pc_reboot c with
  | None => false
  | Some l =>
      if has l "failed-update" && failed then true
      else if negb (has l "failed-update") && failed then false
      else (has l "updated-slots" && updated_slots) || (has l "updated-artifacts" && updated_artifacts)
  end.

(** polling.c:352-397 polling_step.  Result: the context and the manifest hash of the
    installation which was started.  An error (second component Err) keeps the changes made
    to the context. *)
Definition poll_step (c : pconfig) (system : string) (p : pctx) (f : fetched) : pctx * res (option string) :=
  let upd (avail : bool) (m : option pmanifest) (att : option string) (inst : bool) :=
    mkP (p_next p) inst (p_errors p) avail att m (p_must_reboot p) (p_stopped p) in
  match fetch p f with
  | Err => (upd false (p_manifest p) (p_attempted p) (p_installing p), Err)
  | Abort => (p, Abort)
  | Ok None => (upd false None (p_attempted p) (p_installing p), Ok None)
  | Ok (Some m) =>
      let q := upd false (Some m) (p_attempted p) (p_installing p) in
      match check_candidate c system m with
      | Err => (q, Err)
      | Abort => (q, Abort)
      | Ok false => (q, Ok None)
      | Ok true =>
          let q := upd true (Some m) (p_attempted p) (p_installing p) in
          match check_install c system m with
          | Err => (q, Err)
          | Abort => (q, Abort)
          | Ok false => (q, Ok None)
          | Ok true =>
              if match p_attempted p with Some h => String.eqb (pm_hash m) h | None => false end
              then (q, Ok None)
              else (upd true (Some m) (Some (pm_hash m)) true, Ok (Some (pm_hash m)))
          end
      end
  end.

(** what the environment looks like when the timeout fires *)
Record penv := mkEnv {
  e_busy : bool; e_good : bool; e_inhibited : bool; e_reboot_ok : bool; e_fetch : fetched;
  e_later : Z               (* boottime when the attempt is finished *)
}.

Inductive pout := OAttempt (t : Z) | OInstall (t : Z) (hash : string) | OReboot (t : Z).

Definition set_errors (p : pctx) (e : N) : pctx :=
  mkP (p_next p) (p_installing p) e (p_available p) (p_attempted p) (p_manifest p) (p_must_reboot p) (p_stopped p).

(** polling.c:455-532 polling_context_dispatch, called every 10 s *)
Definition dispatch (c : pconfig) (system : string) (p : pctx) (now : Z) (e : penv) : res (pctx * list pout) :=
  if p_stopped p then Ok (p, [])
  else if now <? p_next p then Ok (p, [])
  else if p_installing p then Ok (p, [])
  else if e_busy e then Ok (reschedule p now short_delay, [])
  else if negb (e_good e) then Ok (reschedule p now short_delay, [])
  else if e_inhibited e then Ok (reschedule p now short_delay, [])
  else if p_must_reboot p then
    if e_reboot_ok e then
      Ok (mkP (p_next p) (p_installing p) (p_errors p) (p_available p) (p_attempted p) (p_manifest p) (p_must_reboot p) true, [OReboot now])
    else Ok (reschedule p now short_delay, [OReboot now])
  else
    match poll_step c system p (e_fetch e) with
    | (_, Abort) => Abort
    | (p, r) =>
        let p := set_errors p (match r with Err => p_errors p + 1 | _ => 0 end)%N in
        let p := if p_installing p then p else reschedule p (e_later e) (normal_delay c (p_errors p)) in
        Ok (p, OAttempt now :: match r with Ok (Some h) => [OInstall now h] | _ => [] end)
    end.

(** polling.c:263-296 polling_install_cleanup *)
Definition install_done (c : pconfig) (p : pctx) (now : Z) (failed slots artifacts : bool) : pctx :=
  reschedule (mkP (p_next p) false (p_errors p) (p_available p) (p_attempted p) (p_manifest p)
                (p_must_reboot p || check_reboot c failed slots artifacts) (p_stopped p)) now short_delay.

(** polling.c:439-450 on_handle_poll *)
Definition poll_request (p : pctx) (now : Z) : pctx := reschedule p now short_delay.

Inductive pevent :=
| ETick (now : Z) (e : penv)
| EDone (now : Z) (failed slots artifacts : bool)
| ERequest (now : Z).

Definition pstep (c : pconfig) (system : string) (p : pctx) (ev : pevent) : res (pctx * list pout) :=
  match ev with
  | ETick now e => dispatch c system p now e
  | EDone now f s a => Ok (if p_installing p then install_done c p now f s a else p, [])
  | ERequest now => Ok (poll_request p now, [])
  end.

Fixpoint prun (c : pconfig) (system : string) (p : pctx) (h : list pevent) : res (pctx * list pout) :=
  match h with
  | [] => Ok (p, [])
  | ev :: h => do (p, o) <- pstep c system p ev ;; do (p, o') <- prun c system p h ;; Ok (p, o ++ o')
  end.

(** polling.c:568-620 r_polling_setup: [first] = the randomised initial delay in ms *)
Definition pinit (now first : Z) : pctx := reschedule (mkP 0 false 0 false None None false false) now first.
