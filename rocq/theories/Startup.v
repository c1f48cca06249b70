(** Model of the start of the rauc service (src/main.c:2333-2495, context.c:39-58, 368-380): detection of a reboot by
    the boot ID in the central status file, the boot event, and the links in the runtime directory.

    Simplifications: the events are the ones of the start only, as passed to g_log_structured (their further way: C25);
    r_service_run is not part of this. *)
From Verif Require Import Base Slot KeyFile Install StatusFile.
Open Scope list_scope.

Inductive levent :=
| LBooted (slot bootname boot_id hash : string)     (* main.c:2336-2366 r_event_log_booted *)
| LExternal (boot_id : string)                      (* main.c:2368-2384 r_event_log_booted_external *)
| LRestarted                                        (* "Service restarted" *)
| LStarted.                                         (* "Service started" *)

(** what one boot of the system fixes: boot ID (context.c:39-53), boot slot and device names *)
Record booting := mkBooting {
  bo_id : option string;                            (* None: not supported by the kernel *)
  bo_slot : option string;                          (* r_context()->bootslot *)
  bo_realdev : string -> string
}.

(** what a start meets *)
Inductive saving := SaveOk | SaveFails | SaveCrash. (* .. of the system status; SaveCrash: power lost after the event, before the file is replaced *)
Record starting := mkStarting { sa_artifacts : bool; sa_save : saving }.

(** slot.c:79-94 r_slot_get_booted *)
Definition get_booted (slots : list slot) (st : states) : option slot := find (fun s => state_eqb (st (sl_name s)) ST_BOOTED) slots.

(** main.c:2350-2364; the status was loaded with the configuration (context.c:379) *)
Definition booted_event {T} (m : statuses T) (s : slot) (id : string) : levent :=
  LBooted (sl_name s) (match sl_bootname s with Some b => b | None => "" end) id
    (match m (sl_name s) with Some r => match rs_hash r with Some h => h | None => "unknown" end | None => "unknown" end).

(** a failed r_system_status_save: a broken file was moved away before (status_file.c:334-347) *)
Definition failed_save (f : sfile) : sfile := match f with FBroken => FMissing | _ => f end.

(** main.c:2446-2495 service_start up to r_service_run: events, status file, and whether the service runs *)
Definition service_start {T} (i : iso T) (per_slot : bool) (slots : list slot) (b : booting) (a : starting) (f : sfile)
  : list levent * sfile * bool :=
  match determine_slot_states (bo_realdev b) (bo_slot b) slots with
  | Err | Abort => ([], f, false)                                                          (* :2453-2457 *)
  | Ok st =>
      if negb (sa_artifacts a) then ([], f, false)                                         (* :2459-2464 *)
      else if per_slot then ([LStarted], f, true)                                          (* :2491-2493 *)
      else match bo_id b with
      | None => ([], f, true)                                                              (* :2470-2471 *)
      | Some id =>
          if opt_is (system_load f) id then ([LRestarted], f, true)                        (* :2472-2473 *)
          else
            let ev := if opt_is (bo_slot b) "_external_" then [LExternal id]               (* :2475-2476 *)
                      else match get_booted slots st with                                  (* :2478-2482 *)
                           | Some s => [booted_event (load_globally i f slots (fun _ => None)) s id]
                           | None => []                                                    (* g_return_if_fail *)
                           end in
            match sa_save a with                                                           (* :2485-2490 *)
            | SaveOk => (ev, FGood (system_save f id), true)
            | SaveFails => (ev, failed_save f, true)
            | SaveCrash => (ev, f, false)
            end
      end
  end.

(** what happens to the status file while the system runs: starts of the service, and slot status saved by
    installations and marking (successfully, or not) *)
Inductive sstep (T : Type) := StStart (a : starting) | StSlots (m : statuses T) | StSlotsFail.
Arguments StStart {T}. Arguments StSlots {T}. Arguments StSlotsFail {T}.

Fixpoint run_boot {T} (i : iso T) (slots : list slot) (b : booting) (f : sfile) (l : list (sstep T)) : list levent * sfile :=
  match l with
  | [] => ([], f)
  | StStart a :: r => let '(ev, f1, _) := service_start i false slots b a f in let (ev', f') := run_boot i slots b f1 r in (ev ++ ev', f')
  | StSlots m :: r => run_boot i slots b (FGood (save_globally i f slots m)) r
  | StSlotsFail :: r => run_boot i slots b (failed_save f) r
  end.

(** a history: boots one after the other; the events of each *)
Fixpoint run_boots {T} (i : iso T) (slots : list slot) (f : sfile) (h : list (booting * list (sstep T))) : list (list levent) :=
  match h with
  | [] => []
  | (b, l) :: r => let (ev, f') := run_boot i slots b f l in ev :: run_boots i slots f' r
  end.

(** ** main.c:2386-2444 create_run_links *)
(** a link: where it leads to; [W]: does this r_update_symlink work (it replaces the link atomically, or leaves it: utils.c:788-826) *)
Definition links := string -> option string.
Definition update_link (W : string -> bool) (target path : string) (l : links) : links := if W path then upd l path (Some target) else l.

Record repo := mkRepo { re_name : string; re_path : string; re_parent : bool }.

Definition active (st : states) (s : slot) : bool := negb (state_eqb (st (sl_name s)) ST_INACTIVE).   (* state & ST_ACTIVE *)

(** [mk1], [mk2]: the directories could be created.  Paths are relative to the runtime directory. *)
Definition create_run_links (mk1 mk2 : bool) (W : string -> bool) (slots : list slot) (st : states) (repos : list repo) (l : links) : links :=
  if negb mk1 then l
  else
    let l := fold_left (fun l s => if active st s then update_link W (sl_device s) ("slots/active/" ++ sl_class s) l else l) slots l in
    let booted := fold_left (fun o s => if state_eqb (st (sl_name s)) ST_BOOTED then Some s else o) slots None in
    if negb mk2 then l
    else fold_left (fun l r =>
           if re_parent r
           then match booted with
                | Some s => update_link W (re_path r ++ "/" ++ sl_name s) ("artifacts/" ++ re_name r) l
                | None => l
                end
           else update_link W (re_path r) ("artifacts/" ++ re_name r) l) repos l.
