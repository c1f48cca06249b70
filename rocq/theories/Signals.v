(** Model of the D-Bus properties Operation, Progress and LastError and the signals a client gets: src/service.c:43-60
    service_install_cleanup, :75-152 r_on_handle_install_bundle, :539-559 set_last_error, send_progress_callback;
    src/install.c:1684-1720 install_done, install_thread, :1748-1759 install_run; src/polling.c:265-321; and the code that
    gdbus-codegen generates for properties (r_installer_skeleton_set_property, _notify, schedule_emit_changed, emit_changed, flush): a change
    is remembered with the original value and sent by a source of the main loop, or by the next flush.

    The handlers and sources run in the main thread, one at a time, sources of one priority in the order in which they
    were attached; the installation is a thread; [run] takes any interleaving of both.  Simplifications: only one object; the
    remaining methods and the notification callbacks (install_args_update) change none of these properties and are left out, autoinstall
    too (C50); LastError that was never set counts as empty. *)
From Verif Require Import Base.
Open Scope list_scope.

Definition progress := (nat * string)%type.
(** the values of the properties; [p_op]: Operation is "installing" (true) or "idle" *)
Record props := mkProps { p_op : bool; p_err : string; p_prog : progress }.
(** the original values of changed properties: CHANGED_PROPERTY of the generated code *)
Record orig := mkOrig { o_op : option bool; o_err : option string; o_prog : option progress }.
Definition no_orig := mkOrig None None None.
Inductive source := SEmit | SDone (r : option string).      (* r: the message of the error, None for success *)

(** what is sent, in this order; WStarted marks the start of an installation thread *)
Inductive wire :=
| WStarted
| WChanged (op : option bool) (err : option string) (prog : option progress)  (* PropertiesChanged *)
| WCompleted (r : option string)                                                      (* Completed; what is sent is 0 or 1 *)
| WRefused.                                                                           (* InstallBundle failed *)

(** install.c:1694-1720 install_thread *)
Inductive phase := PStart | PWork (begun : bool) | PFlush | PEnd (r : option string).

Record st := mkSt {
  s_props : props; s_orig : orig; s_idle : bool;      (* changed_properties_idle_source *)
  s_busy : bool; s_thread : option phase; s_queue : list source; s_wire : list wire }.
Definition st0 : st := mkSt (mkProps false "" (0, ""%string)) no_orig false false None [] [].

Definition prog_eqb (a b : progress) : bool := Nat.eqb (fst a) (fst b) && String.eqb (snd a) (snd b).
Definition keep {A} (o : option A) (v : A) : option A := match o with Some x => Some x | None => Some v end.
Definition has_orig (o : orig) : bool := match o_op o, o_err o, o_prog o with None, None, None => false | _, _, _ => true end.

(** the notify handler: a source that sends the changes, if there is none *)
Definition notify (s : st) : st :=
  if has_orig (s_orig s) && negb (s_idle s)
  then mkSt (s_props s) (s_orig s) true (s_busy s) (s_thread s) (s_queue s ++ [SEmit]) (s_wire s) else s.
(** set_property *)
Definition set_op (b : bool) (s : st) : st :=
  let p := s_props s in let o := s_orig s in
  if Bool.eqb b (p_op p) then s
  else notify (mkSt (mkProps b (p_err p) (p_prog p)) (mkOrig (keep (o_op o) (p_op p)) (o_err o) (o_prog o)) (s_idle s) (s_busy s) (s_thread s) (s_queue s) (s_wire s)).
Definition set_err (m : string) (s : st) : st :=
  let p := s_props s in let o := s_orig s in
  if String.eqb m (p_err p) then s
  else notify (mkSt (mkProps (p_op p) m (p_prog p)) (mkOrig (o_op o) (keep (o_err o) (p_err p)) (o_prog o)) (s_idle s) (s_busy s) (s_thread s) (s_queue s) (s_wire s)).
Definition set_prog (g : progress) (s : st) : st :=
  let p := s_props s in let o := s_orig s in
  if prog_eqb g (p_prog p) then s
  else notify (mkSt (mkProps (p_op p) (p_err p) g) (mkOrig (o_op o) (o_err o) (keep (o_prog o) (p_prog p))) (s_idle s) (s_busy s) (s_thread s) (s_queue s) (s_wire s)).

(** emit_changed: the source, and g_dbus_interface_skeleton_flush *)
Definition differs {A} (eqb : A -> A -> bool) (o : option A) (v : A) : option A := match o with Some x => if eqb x v then None else Some v | None => None end.
Definition changes (o : orig) (p : props) : list wire :=
  match differs Bool.eqb (o_op o) (p_op p), differs String.eqb (o_err o) (p_err p), differs prog_eqb (o_prog o) (p_prog p) with
  | None, None, None => []
  | a, b, c => [WChanged a b c]
  end.
Definition flush (s : st) : st :=
  mkSt (s_props s) no_orig false (s_busy s) (s_thread s) (s_queue s) (s_wire s ++ changes (s_orig s) (s_props s)).

Definition send (w : wire) (s : st) : st := mkSt (s_props s) (s_orig s) (s_idle s) (s_busy s) (s_thread s) (s_queue s) (s_wire s ++ [w]).
Definition set_busy (b : bool) (s : st) : st := mkSt (s_props s) (s_orig s) (s_idle s) b (s_thread s) (s_queue s) (s_wire s).
Definition set_thread (t : option phase) (s : st) : st := mkSt (s_props s) (s_orig s) (s_idle s) (s_busy s) t (s_queue s) (s_wire s).
Definition attach (x : source) (s : st) : st := mkSt (s_props s) (s_orig s) (s_idle s) (s_busy s) (s_thread s) (s_queue s ++ [x]) (s_wire s).

(** install_run *)
Definition install_run (s : st) : st := send WStarted (set_thread (Some PStart) (set_busy true s)).
(** service.c:75-152; [bad]: the dictionary has an unsupported key *)
Definition install_bundle (bad : bool) (s : st) : st :=
  if s_busy s || bad then send WRefused (set_op false s)
  else install_run (flush (set_op true s)).
(** polling.c:300-321; only when not busy (polling.c:460-470) *)
Definition poll_install (s : st) : st := if s_busy s then s else install_run (set_op true s).

(** one step of the thread; [tstep]: what it does next, where it has a choice *)
Inductive tstep := TProgress (g : progress) | TEnd (r : option string).
Definition thread_step (x : tstep) (s : st) : st :=
  match s_thread s, x with
  | Some PStart, _ => set_thread (Some (PWork false)) (set_err "" s)
  | Some (PWork _), TProgress g =>
      (* service.c:546-559; the first step is begun before anything can fail, install.c do_install_bundle *)
      if p_op (s_props s) then set_thread (Some PFlush) (set_prog g s) else set_thread (Some (PWork true)) s
  | Some PFlush, _ => set_thread (Some (PWork true)) (flush s)
  | Some (PWork true), TEnd r => set_thread (Some (PEnd r)) (match r with Some m => set_err m s | None => s end)
  | Some (PEnd r), _ => set_thread None (attach (SDone r) s)
  | _, _ => s
  end.

(** install_done with service_install_cleanup or polling_install_cleanup *)
Definition done (r : option string) (s : st) : st := set_busy false (flush (set_op false (send (WCompleted r) s))).
Definition loop (s : st) : st :=
  match s_queue s with
  | [] => s
  | x :: q =>
      let s := mkSt (s_props s) (s_orig s) (s_idle s) (s_busy s) (s_thread s) q (s_wire s) in
      match x with SEmit => flush s | SDone r => done r s end
  end.

Inductive ev := EInstall (bad : bool) | EPoll | EThread (x : tstep) | ELoop.
Definition step (s : st) (e : ev) : st :=
  match e with EInstall bad => install_bundle bad s | EPoll => poll_install s | EThread x => thread_step x s | ELoop => loop s end.
Definition run (h : list ev) : st := fold_left step h st0.
