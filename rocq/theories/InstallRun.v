(** Model of the execution of an installation (src/install.c), as the sequence of
    all changes it makes to persistent state and to rauc's in-memory slot status.

    Reading of persistence: an event is persistent when it appears in the trace
    (events reach the storage in program order: the status file is replaced
    atomically by g_key_file_save_to_file -> g_file_set_contents, images are
    fsync'ed by the update handlers, fw_setenv & co. sync themselves).  A crash
    keeps the effects of a prefix of the trace and loses the in-memory status. *)
From Verif Require Import Base Slot Image Handlers Install.

(** The fields of RaucSlotStatus (include/slot.h) that decide about skipping. *)
Record sstat := mkStat { st_status : option string; st_digest : option string }.

(** Contents of a slot device: a completely written image (with the digest the
    manifest gives for it, NULL if it has none), or anything else. *)
Inductive content := Whole (d : option string) | Torn.

Record world (B : Type) := mkWorld {
  w_mem : string -> sstat;        (* slot->status, by slot name *)
  w_disk : string -> sstat;       (* status file *)
  w_dev : string -> content;      (* by device *)
  w_boot : B                      (* boot loader state *)
}.
Arguments mkWorld {B}. Arguments w_mem {B}. Arguments w_disk {B}.
Arguments w_dev {B}. Arguments w_boot {B}.

Inductive event (B : Type) :=
| ESetMem (n : string) (s : sstat)    (* slot->status changed *)
| ESave                               (* status file written: save_slot_status_globally *)
| EWrite (d : string) (c : content)   (* device now has this content *)
| EBad (b : B)                        (* boot loader state, while marking bad *)
| EAct (b : B)                        (* boot loader state, while marking active *)
| EArtifact (r : string).             (* change in an artifact repository (Artifacts.v) *)
Arguments ESetMem {B}. Arguments ESave {B}. Arguments EWrite {B}.
Arguments EBad {B}. Arguments EAct {B}. Arguments EArtifact {B}.

Definition apply {B} (w : world B) (e : event B) : world B :=
  match e with
  | ESetMem n s => mkWorld (upd (w_mem w) n s) (w_disk w) (w_dev w) (w_boot w)
  | ESave => mkWorld (w_mem w) (w_mem w) (w_dev w) (w_boot w)
  | EWrite d c => mkWorld (w_mem w) (w_disk w) (upd (w_dev w) d c) (w_boot w)
  | EBad b | EAct b => mkWorld (w_mem w) (w_disk w) (w_dev w) b
  | EArtifact _ => w
  end.

Definition replay {B} (w : world B) (es : list (event B)) : world B := fold_left apply es w.

(** Restart of rauc: the status is loaded from the file again
    (status_file.c:219-262 r_slot_status_load_globally). *)
Definition restart {B} (w : world B) : world B := mkWorld (w_disk w) (w_disk w) (w_dev w) (w_boot w).

(** What can happen to the external steps of one plan. *)
Inductive hres := HOk | HFailUntouched | HFailTorn.
Record plan_out := mkPout {
  po_mounted : bool;         (* slot still mounted after loading the status *)
  po_save_pending : bool;    (* first r_slot_status_save succeeds *)
  po_handler : hres;         (* slot handler *)
  po_save_done : bool;       (* final r_slot_status_save succeeds *)
  po_artifact : bool         (* artifact plan succeeds *)
}.

(** r_slot_status_save: may fail, then the old file stays *)
Definition save_ev {B} (ok : bool) : list (event B) := if ok then [ESave] else [].

(** install.c:1114-1231 handle_slot_install_plan.  [per_slot]: status files inside the
    slots.  For them [w_disk] is what a later mount would read; the model lets it
    survive a torn write (it may). *)
Definition handle_slot_plan {B} (per_slot : bool) (o : plan_out) (w : world B) (i : image) (s : slot)
  : bool * list (event B) :=
  let n := sl_name s in
  let m := w_mem w n in
  if po_mounted o then (false, [])                                            (* :1131-1138 *)
  else if negb (sl_install_same s) && opt_is (st_status m) "ok"
          && opt_eqb (im_digest i) (st_digest m) then                         (* :1141 *)
    (po_save_done o,
     ESetMem n (mkStat (Some "ok") (im_digest i)) :: save_ev (po_save_done o)) (* :1150-1156 *)
  else
    let pending := ESetMem n (mkStat (Some "pending") None) in                (* :1167-1174 *)
    if negb per_slot && negb (po_save_pending o) then (false, [pending])      (* :1181-1185 *)
    else
      let pre := if per_slot then [] else [pending; ESave] in
      match po_handler o with
      | HOk => (po_save_done o,
                pre ++ [EWrite (sl_device s) Torn; EWrite (sl_device s) (Whole (im_digest i));
                        ESetMem n (mkStat (Some "ok") (im_digest i))]
                    ++ save_ev (po_save_done o))                              (* :1222-1227 *)
      | HFailUntouched => (false, pre ++ [ESetMem n (mkStat (Some "failed") (im_digest i))]
                                      ++ save_ev (po_save_done o))            (* :1205-1219 *)
      | HFailTorn => (false, pre ++ [EWrite (sl_device s) Torn;
                                     ESetMem n (mkStat (Some "failed") (im_digest i))]
                                 ++ save_ev (po_save_done o))
      end.

(** install.c:1369-1440 handle_artifact_install_plan (see Artifacts.v); here only
    whether it succeeds *)
Definition handle_plan {B} (per_slot : bool) (o : plan_out) (w : world B) (p : plan)
  : bool * list (event B) :=
  match pl_target p with
  | TSlot s _ => handle_slot_plan per_slot o w (pl_image p) s
  | TRepo r => (po_artifact o, [EArtifact r])
  end.

(** install.c:1482-1500: the loop over the plans; [out k] = outcome of plan k *)
Fixpoint run_plans {B} (per_slot : bool) (out : nat -> plan_out) (k : nat) (w : world B) (ps : list plan)
  : bool * list (event B) :=
  match ps with
  | [] => (true, [])
  | p :: r =>
      let '(ok, es) := handle_plan per_slot (out k) w p in
      if ok then
        let '(ok', es') := run_plans per_slot out (S k) (replay w es) r in (ok', es ++ es')
      else (false, es)
  end.

(** A boot chooser operation: the successive boot loader states; [None] = all
    writes succeed, [Some k] = failure after k writes. *)
Definition boot_events {B} (tag : B -> event B) (sts : list B) (o : option nat) : bool * list (event B) :=
  match o with
  | None => (true, map tag sts)
  | Some k => (false, map tag (firstn k sts))
  end.

Record run_out := mkRout {
  ro_plans : nat -> plan_out;
  ro_bad : option nat;
  ro_act : option nat;
  ro_prune : bool;           (* r_artifacts_prune succeeds *)
  ro_act_save : bool         (* status save in r_mark_active; a failure is only logged *)
}.

(** A boot loader backend: successive states of marking a slot bad / active. *)
Record backend (B : Type) := mkBackend {
  bk_bad : B -> slot -> list B;
  bk_act : B -> slot -> list B
}.
Arguments mkBackend {B}. Arguments bk_bad {B}. Arguments bk_act {B}.

Record sysconf := mkConf {
  cf_slots : list slot;
  cf_repos : list string;
  cf_variant : option string;
  cf_per_slot : bool;            (* statusfile = per-slot *)
  cf_activate : bool             (* activate-installed *)
}.

(** install.c:1470-1521: from marking bad to marking active, for checked plans *)
Definition run_checked {B} (bk : backend B) (cf : sysconf) (o : run_out) (w : world B)
  (ps : list plan) (bm : option slot) : res unit * list (event B) :=
  let '(ok1, es1) := match bm with
                     | None => (true, [])
                     | Some s => boot_events EBad (bk_bad bk (w_boot w) s) (ro_bad o)   (* :1462-1471 *)
                     end in
  if negb ok1 then (Err, es1) else
  let w1 := replay w es1 in
  let '(ok2, es2) := run_plans (cf_per_slot cf) (ro_plans o) 0 w1 ps in
  if negb ok2 then (Err, es1 ++ es2) else
  if negb (ro_prune o) then (Err, es1 ++ es2) else                                      (* :1503-1506 *)
  match bm with
  | Some s =>
      if cf_activate cf then                                                            (* :1511-1517 *)
        let '(ok3, es3) := boot_events EAct (bk_act bk (w_boot (replay w1 es2)) s) (ro_act o) in
        if ok3 then (Ok tt, es1 ++ es2 ++ es3 ++ save_ev (ro_act_save o))
        else (Err, es1 ++ es2 ++ es3)
      else (Ok tt, es1 ++ es2)
  | None => (Ok tt, es1 ++ es2)
  end.

(** install.c:1443-1521 launch_and_wait_default_handler *)
Definition default_handler {B} (bk : backend B) (cf : sysconf) (imgs : list image) (tg : target_group)
  (ck : checks) (artifacts_ok : bool) (o : run_out) (w : world B) : res unit * list (event B) :=
  match make_plans (cf_variant cf) imgs tg (cf_repos cf) artifacts_ok with
  | Ok ps =>
      match boot_mark_slot ps None with
      | Ok bm =>
          match pre_install_checks ck ps with
          | Ok _ => run_checked bk cf o w ps bm
          | Err => (Err, [])
          | Abort => (Abort, [])
          end
      | Err => (Err, [])
      | Abort => (Abort, [])
      end
  | Err => (Err, [])
  | Abort => (Abort, [])
  end.

(** Everything that varies between two installations. *)
Record inputs := mkInputs {
  in_states : states;                     (* slot states *)
  in_info : string -> sel_status;         (* what target selection sees *)
  in_images : list image;                 (* the bundle *)
  in_checks : checks;
  in_artifacts_ok : bool;
  in_out : run_out
}.

(** do_install_bundle (install.c:1568-1624) with the default handler, from target
    selection on.  The gates before it are in Gates.v. *)
Definition install {B} (bk : backend B) (cf : sysconf) (inp : inputs) (w : world B)
  : res unit * list (event B) :=
  default_handler bk cf (in_images inp)
    (determine_target_group (cf_per_slot cf) (in_states inp) (in_info inp) (cf_slots cf))
    (in_checks inp) (in_artifacts_ok inp) (in_out inp) w.
