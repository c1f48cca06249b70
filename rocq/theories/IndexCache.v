(** Model of the per-slot data directories which cache block hash indexes
    (src/slot.c:202-341, src/install.c:1098-1231, src/status_file.c:262-275, 404-420, src/hash_index.c:330-370, 415-434,
    src/update_handler.c:745-800, 925-935).

    Simplifications: one slot; central status file (with per-slot status files there is no data directory, config_file.c:543);
    only the names below the data directory of the slot and the block-hash-index file in each sub directory are kept; a file
    created by g_file_set_contents is complete or absent.  Contents of indexes are of any type [I].  Writing the image itself is
    C04, C20 and C46. *)
From Verif Require Import Base KeyFile.
Open Scope list_scope.

Section Model.
Context {I : Type}.

(** the fields of RaucSlotStatus in use here *)
Record stat := mkSt { s_status : option string; s_digest : option string }.

(** the entries of the data directory: name, and the index in it, if any (plain files: None) *)
Definition entries := list (string * option I).

Record st := mkState {
  x_mem : stat;            (* slot->status *)
  x_file : stat;           (* the status file *)
  x_dirs : entries }.

Inductive ev :=
| DMem (s : stat)                          (* slot->status changes *)
| DSave                                    (* the status file is replaced *)
| DEmpty (n : string)                      (* rm_tree has removed the index, not (yet) the directory *)
| DRemove (n : string)                     (* rm_tree has removed the directory *)
| DMkdir (n : string)                      (* g_mkdir_with_parents *)
| DRename (a b : string)                   (* rename(2) *)
| DIndex (n : string) (i : I).             (* g_file_set_contents of the index *)

Definition dir_name (digest : string) : string := "hash-" ++ digest.

Definition apply (w : st) (e : ev) : st :=
  let dirs d := mkState (x_mem w) (x_file w) d in
  match e with
  | DMem s => mkState s (x_file w) (x_dirs w)
  | DSave => mkState (x_mem w) (x_mem w) (x_dirs w)
  | DEmpty n => dirs (map (fun e => if String.eqb (fst e) n then (fst e, None) else e) (x_dirs w))
  | DRemove n => dirs (assoc_remove n (x_dirs w))
  | DMkdir n => dirs (match assoc n (x_dirs w) with Some _ => x_dirs w | None => x_dirs w ++ [(n, None)] end)
  | DRename a b => dirs (match assoc a (x_dirs w) with Some i => assoc_remove a (assoc_remove b (x_dirs w)) ++ [(b, i)] | None => x_dirs w end)
  | DIndex n i => dirs (match assoc n (x_dirs w) with Some _ => assoc_remove n (x_dirs w) ++ [(n, Some i)] | None => x_dirs w end)
  end.
Definition replay (w : st) (l : list ev) : st := fold_left apply l w.

(** what rm_tree achieves *)
Inductive rm := RmAll | RmIndexOnly | RmNothing.
Definition rm_tree (r : rm) (n : string) : list ev := match r with RmAll => [DEmpty n; DRemove n] | RmIndexOnly => [DEmpty n] | RmNothing => [] end.

(** slot.c:292-341 r_slot_clean_data_directory; [r]: what becomes of each removal.  A status without digest gives "hash-(null)" *)
Definition clean (r : string -> rm) (w : st) : list ev :=
  if opt_is (s_status (x_mem w)) "pending" then []
  else
    let expected := dir_name (match s_digest (x_mem w) with Some d => d | None => "(null)" end) in
    flat_map (fun e => if has_prefix "hash-" (fst e) && negb (String.eqb (fst e) expected) then rm_tree (r (fst e)) (fst e) else []) (x_dirs w).

(** status_file.c:404-420 r_slot_status_save *)
Definition save (r : string -> rm) (ok : bool) (w : st) : list ev := clean r w ++ (if ok then [DSave] else []).

(** slot.c:243-290 r_slot_move_checksum_data_directory with new_digest = NULL; its failure is only a warning *)
Definition move (r : rm) (rename_ok : bool) (old : option string) (w : st) : list ev :=
  match old with
  | None => []
  | Some d =>
      match assoc (dir_name "unknown") (x_dirs w) with
      | Some _ => match r with RmAll => rm_tree RmAll (dir_name "unknown") ++ (if rename_ok then [DRename (dir_name d) (dir_name "unknown")] else [])
                             | _ => rm_tree r (dir_name "unknown") end
      | None => if rename_ok then [DRename (dir_name d) (dir_name "unknown")] else []
      end
  end.

(** slot.c:202-241 r_slot_get_checksum_data_directory: the name; [ck]: the digest of the [checksum] argument *)
Definition data_dir (s : stat) (ck : option string) : string :=
  dir_name (match ck with Some d => d | None => match s_digest s with Some d => d | None => "unknown" end end).

(** the image: its digest, and if block-hash-index is among its adaptive methods, the index in the bundle *)
Record img := mkImg { i_digest : option string; i_index : option I }.

(** what happens during one installation *)
Record out := mkOut {
  o_same : bool;                       (* install-same of the slot *)
  o_clean : nat -> string -> rm;       (* the k-th cleaning *)
  o_move_rm : rm; o_move : bool;
  o_save_pending : bool;               (* first r_slot_status_save *)
  o_mkdir : bool;                      (* r_slot_get_checksum_data_directory of the target *)
  o_adaptive : bool;                   (* the adaptive copy works *)
  o_export_dir : bool; o_export : bool;
  o_raw : bool;                        (* the raw copy works *)
  o_hooks : bool;                      (* the rest of the slot handler works *)
  o_save : bool }.

(** update_handler.c:1003-1027 with :745-800, 925-935, hash_index.c:330-370, 415-434: the slot handler as far as the data
    directory goes.  The index it used for the target slot ([None]: computed anew, or not needed), events, result *)
Definition handler (o : out) (i : img) (w : st) : option I * list ev * bool :=
  match i_index i with
  | None => (None, [], o_raw o && o_hooks o)
  | Some ix =>
      if o_mkdir o
      then let n := data_dir (x_mem w) None in
           let w1 := apply w (DMkdir n) in
           let used := match assoc n (x_dirs w1) with Some u => u | None => None end in
           if o_adaptive o
           then let m := data_dir (x_mem w) (i_digest i) in
                (used, DMkdir n :: (if o_export_dir o then DMkdir m :: (if o_export o then [DIndex m ix] else []) else []), o_hooks o)
           else (used, [DMkdir n], o_raw o && o_hooks o)
      else (None, [], o_raw o && o_hooks o)
  end.

(** install.c:1114-1231 handle_slot_install_plan.  Index used for the target, events, result *)
Definition attempt (o : out) (i : img) (w0 : st) : option I * list ev * bool :=
  let e0 := clean (o_clean o 0) w0 in                                          (* r_slot_status_load *)
  let w1 := replay w0 e0 in
  if negb (o_same o) && opt_is (s_status (x_mem w1)) "ok" && opt_eqb (i_digest i) (s_digest (x_mem w1))
  then let e1 := [DMem (mkSt (Some "ok"%string) (i_digest i))] in
       (None, e0 ++ e1 ++ save (o_clean o 1) (o_save o) (replay w1 e1), o_save o)
  else
    let e1 := DMem (mkSt (Some "pending"%string) None) :: move (o_move_rm o) (o_move o) (s_digest (x_mem w1)) w1 in
    let w2 := replay w1 e1 in
    let e2 := save (o_clean o 1) (o_save_pending o) w2 in
    if negb (o_save_pending o) then (None, e0 ++ e1 ++ e2, false)
    else
      let w3 := replay w2 e2 in
      let '(used, e3, ok) := handler o i w3 in
      let e4 := [DMem (mkSt (Some (if ok then "ok" else "failed")%string) (i_digest i))] in
      let w4 := replay w3 (e3 ++ e4) in
      (used, e0 ++ e1 ++ e2 ++ e3 ++ e4 ++ save (o_clean o 2) (o_save o) w4, ok && o_save o).

(** hash_index.c:330-370 for the active slot (update_handler.c:772-785): the index found, events *)
Definition seed_index (mkdir_ok : bool) (w : st) : option I * list ev :=
  if mkdir_ok
  then let n := data_dir (x_mem w) None in
       (match assoc n (x_dirs (apply w (DMkdir n))) with Some u => u | None => None end, [DMkdir n])
  else (None, []).

(** ** histories: installations, perhaps cut off by a power failure, then a restart *)
Definition restart (w : st) : st := mkState (x_file w) (x_file w) (x_dirs w).
Definition use_events (r : option I * list ev * bool) : list ev := snd (fst r).
Inductive act := Install (i : img) (o : out) | InstallCut (i : img) (o : out) (k : nat) | Seed (mkdir_ok : bool) | Restart.
Definition perform (w : st) (a : act) : st :=
  match a with
  | Install i o => replay w (use_events (attempt o i w))
  | InstallCut i o k => restart (replay w (firstn k (use_events (attempt o i w))))
  | Seed b => replay w (snd (seed_index b w))
  | Restart => restart w
  end.
Definition history (w : st) (l : list act) : st := fold_left perform l w.
End Model.
Arguments st : clear implicits. Arguments img : clear implicits. Arguments act : clear implicits. Arguments ev : clear implicits. Arguments entries : clear implicits.
