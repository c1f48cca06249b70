(** Model of the D-Bus service (src/service.c) together with the installation thread (src/install.c:41-63,
    1685-1759) and the installations started by polling (src/polling.c:265-321): which requests are served, what
    happens concurrently, which signals and properties a client sees.

    Threads: the D-Bus handlers, the polling timer and the callbacks queued with g_main_context_invoke run one at a
    time in the main thread; the installation runs in a thread of its own.  A schedule is a list of [sev]: in which
    order the main thread serves requests, the installation thread makes a step, and the main loop dispatches
    the next queued callback.  GLib dispatches callbacks of one priority in the order in which they were queued
    (g_main_context_invoke always uses the default priority).

    Simplifications: what a method computes is not part of this model (its result is an input); a changed
    configuration (r_config_file_modified_check, pending) only leads to messages; the main loop runs until the end
    of the schedule. *)
From Verif Require Import Base.

(** who started an installation: a client (InstallBundle / Install), polling, or the autoinstall path *)
Inductive origin := ByClient | ByPolling | ByAuto.

(** service.c:234-522: the other methods which are refused while busy *)
Inductive method := MInspect | MMark (good booted : bool) | MSlotStatus | MArtifactStatus | MPrimary.

(** include/install.h RaucInstallArgs: [j_msgs] = status_messages, [j_result] = status_result (None: -2, not set) *)
Record job := mkJob {
  j_id : nat;                  (* ghost: identifies the installation *)
  j_origin : origin;
  j_msgs : list string;
  j_result : option bool       (* Some true: success *)
}.

Inductive cb := CNotify (id : nat) | CDone (id : nat).

(** what can be observed; [OWork]: the method really was executed (it reads or changes slots and boot loader) *)
Inductive sout :=
| OAccepted (o : origin) (id : nat)        (* an installation was started *)
| ORefused (c : option method)             (* None: InstallBundle *)
| OWork (m : method) (ok : bool)           (* a method was executed, with this result *)
| OPoll                                    (* polling looks for a bundle *)
| OMessage (id : nat) (msg : string)
| OProgress (id : nat) (pct : nat)         (* the Progress property changed *)
| OThreadEnd (id : nat) (ok : bool)        (* the installation ended with this result *)
| OCompleted (id : nat) (ok : bool).       (* the Completed signal *)

Record svc := mkSvc {
  v_next : nat;
  v_busy : bool;                (* context->busy *)
  v_installing : bool;          (* the Operation property: "installing" / "idle" *)
  v_good : bool;                (* r_service_booted_slot_is_good *)
  v_polling : bool;             (* installation_running of the polling context *)
  v_jobs : list job;            (* allocated install args *)
  v_threads : list nat;         (* running installation threads *)
  v_queue : list cb;            (* callbacks queued for the main loop *)
  v_dead : bool;                (* aborted *)
  v_out : list sout
}.
Definition svc_init : svc := mkSvc 0 false false false false [] [] [] false [].

Definition emit (l : list sout) (s : svc) : svc :=
  mkSvc (v_next s) (v_busy s) (v_installing s) (v_good s) (v_polling s) (v_jobs s) (v_threads s) (v_queue s) (v_dead s) (v_out s ++ l).
Definition set_op (b : bool) (s : svc) : svc :=
  mkSvc (v_next s) (v_busy s) b (v_good s) (v_polling s) (v_jobs s) (v_threads s) (v_queue s) (v_dead s) (v_out s).
Definition set_good (b : bool) (s : svc) : svc :=
  mkSvc (v_next s) (v_busy s) (v_installing s) b (v_polling s) (v_jobs s) (v_threads s) (v_queue s) (v_dead s) (v_out s).
Definition set_polling (b : bool) (s : svc) : svc :=
  mkSvc (v_next s) (v_busy s) (v_installing s) (v_good s) b (v_jobs s) (v_threads s) (v_queue s) (v_dead s) (v_out s).
Definition set_jobs (l : list job) (s : svc) : svc :=
  mkSvc (v_next s) (v_busy s) (v_installing s) (v_good s) (v_polling s) l (v_threads s) (v_queue s) (v_dead s) (v_out s).
Definition set_threads (l : list nat) (s : svc) : svc :=
  mkSvc (v_next s) (v_busy s) (v_installing s) (v_good s) (v_polling s) (v_jobs s) l (v_queue s) (v_dead s) (v_out s).
Definition set_queue (l : list cb) (s : svc) : svc :=
  mkSvc (v_next s) (v_busy s) (v_installing s) (v_good s) (v_polling s) (v_jobs s) (v_threads s) l (v_dead s) (v_out s).
Definition die (s : svc) : svc :=
  mkSvc (v_next s) (v_busy s) (v_installing s) (v_good s) (v_polling s) (v_jobs s) (v_threads s) (v_queue s) true (v_out s).

(** context.c:573-585 r_context_set_busy *)
Definition set_busy (b : bool) (s : svc) : svc :=
  if Bool.eqb (v_busy s) b then die s
  else mkSvc (v_next s) b (v_installing s) (v_good s) (v_polling s) (v_jobs s) (v_threads s) (v_queue s) (v_dead s) (v_out s).

Definition find_job (id : nat) (l : list job) : option job := find (fun j => Nat.eqb (j_id j) id) l.
Definition drop_job (id : nat) (l : list job) : list job := filter (fun j => negb (Nat.eqb (j_id j) id)) l.
Definition upd_job (id : nat) (f : job -> job) (l : list job) : list job :=
  map (fun j => if Nat.eqb (j_id j) id then f j else j) l.
Definition drop_thread (id : nat) (l : list nat) : list nat := filter (fun i => negb (Nat.eqb i id)) l.

(** install.c:42-63 install_args_update: without notify function (polling) nothing is done *)
Definition args_update (id : nat) (msg : string) (s : svc) : svc :=
  match find_job id (v_jobs s) with
  | None => die s                                                     (* use after free *)
  | Some j =>
      match j_origin j with
      | ByPolling => s
      | _ => set_queue (v_queue s ++ [CNotify id])
               (set_jobs (upd_job id (fun j => mkJob (j_id j) (j_origin j) (j_msgs j ++ [msg]) (j_result j)) (v_jobs s)) s)
      end
  end.

(** install.c:1749-1759 install_run for new args of this origin; the thread begins with the message "started"
    (install.c:1701-1705) *)
Definition install_run (o : origin) (s : svc) : svc :=
  let id := v_next s in
  let s := mkSvc (S id) (v_busy s) (v_installing s) (v_good s) (v_polling s) (v_jobs s ++ [mkJob id o [] None])
             (v_threads s) (v_queue s) (v_dead s) (v_out s) in
  let s := set_busy true s in
  if v_dead s then s
  else emit [OAccepted o id] (set_threads (v_threads s ++ [id]) s).

(** service.c:83-150 r_on_handle_install_bundle (and the deprecated Install); [unsupported]: the dictionary
    contains unknown keys.  A refused call also sets the Operation property to "idle" (service.c:140-142) *)
Definition on_install (unsupported : bool) (s : svc) : svc :=
  if v_busy s then emit [ORefused None] (set_op false s)
  else if unsupported then emit [ORefused None] (set_op false s)
  else install_run ByClient (set_op true s).

(** service.c:161-296, 418-510: the other methods; [ok] is their result *)
Definition on_method (m : method) (ok : bool) (s : svc) : svc :=
  if v_busy s then emit [ORefused (Some m)] s
  else
    let s := emit [OWork m ok] s in
    match m with
    | MMark good true => if ok then set_good good s else s            (* service.c:274-281 *)
    | _ => s
    end.

(** service.c:512-537 auto_install, called when the bus name was acquired; if busy, the args are freed without
    result: the assertion in install_args_free (install.c:1742) fails *)
Definition on_autoinstall (s : svc) : svc :=
  if v_busy s then die s else install_run ByAuto s.

(** polling.c:461-532 the timer: busy, not good, then polling_step; [install]: it finds a bundle to install
    (polling.c:302-321 polling_trigger_install) *)
Definition on_poll (install : bool) (s : svc) : svc :=
  if v_polling s then s
  else if v_busy s then s
  else if negb (v_good s) then s
  else
    let s := emit [OPoll] s in
    if install then set_polling true (install_run ByPolling (set_op true s)) else s.

(** install.c:1695-1724: the installation thread.  A progress report (service.c:545-560) is only passed on if the
    Operation property is not "idle". *)
Inductive tact := TMessage (msg : string) | TProgress (pct : nat) | TEnd (ok : bool) (msg : string).
Definition thread_step (id : nat) (a : tact) (s : svc) : svc :=
  if existsb (Nat.eqb id) (v_threads s) then
    match a with
    | TMessage msg => args_update id msg s
    | TProgress pct => if v_installing s then emit [OProgress id pct] s else s
    | TEnd ok msg =>
        let s := if ok then s else args_update id msg s in
        let s := set_jobs (upd_job id (fun j => mkJob (j_id j) (j_origin j) (j_msgs j) (Some ok)) (v_jobs s)) s in
        let s := args_update id "finished" s in
        emit [OThreadEnd id ok] (set_queue (v_queue s ++ [CDone id]) (set_threads (drop_thread id (v_threads s)) s))
    end
  else s.

(** install.c:1737-1747 install_args_free *)
Definition args_free (j : job) (s : svc) : svc :=
  match j_result j, j_msgs j with
  | Some _, [] => set_jobs (drop_job (j_id j) (v_jobs s)) s
  | _, _ => die s
  end.

(** the main loop dispatches the oldest callback: service.c:27-39 service_install_notify; install.c:1684-1693
    install_done with service.c:41-58 service_install_cleanup or polling.c:265-296 polling_install_cleanup *)
Definition dispatch (s : svc) : svc :=
  match v_queue s with
  | [] => s
  | CNotify id :: q =>
      match find_job id (v_jobs s) with
      | None => die (set_queue q s)                                   (* use after free *)
      | Some j =>
          emit (map (OMessage id) (j_msgs j))
            (set_jobs (upd_job id (fun j => mkJob (j_id j) (j_origin j) [] (j_result j)) (v_jobs s)) (set_queue q s))
      end
  | CDone id :: q =>
      match find_job id (v_jobs s) with
      | None => die (set_queue q s)
      | Some j =>
          let s := set_queue q s in
          let s := match j_origin j with ByPolling => set_polling false s | _ => s end in
          let s := emit [OCompleted id (match j_result j with Some ok => ok | None => false end)] (set_op false s) in
          let s := args_free j s in
          if v_dead s then s else set_busy false s
      end
  end.

Inductive sev :=
| EInstall (unsupported : bool)
| EMethod (m : method) (ok : bool)
| EAuto
| EPoll (install : bool)
| EThread (id : nat) (a : tact)
| ELoop.

Definition sstep (s : svc) (e : sev) : svc :=
  if v_dead s then s
  else match e with
       | EInstall u => on_install u s
       | EMethod m ok => on_method m ok s
       | EAuto => on_autoinstall s
       | EPoll i => on_poll i s
       | EThread id a => thread_step id a s
       | ELoop => dispatch s
       end.

Definition srun (h : list sev) : svc := fold_left sstep h svc_init.
