(** C72: the start of the service: boot events and links of active slots. *)
From Coq Require Import Permutation.
From Verif Require Import Base BaseLemmas Slot KeyFile Install InstallSpec StatusFile StatusFileSpec StatusFileProofs Startup StartupSpec StartupProofs.
Open Scope list_scope.

Theorem C72_once : forall T (i : iso T) slots (h : list (booting * list (sstep T))) ids f, unique_names slots ->
  map (fun x => bo_id (fst x)) h = map Some ids -> NoDup ids -> (forall id, system_load f = Some id -> ~ In id ids) ->
  Forall2 (fun x log => exists id, bo_id (fst x) = Some id /\ boot_once slots (fst x) id (snd x) log) h (run_boots i slots f h).
Proof. exact c72_once_ok. Qed.
Print Assumptions C72_once.
Theorem C72_counts : forall T slots b id (l : list (sstep T)) log, boot_once slots b id l log -> known_slot slots b ->
  exists n m, n + m = List.length (good_starts l) /\ (good_starts l <> [] -> 0 < n) /\ ((forall x, In x (good_starts l) -> x = SaveOk) -> n <= 1) /\
    (exists evs, log = evs ++ repeat LRestarted m /\ List.length evs = n /\ Forall (says_boot slots b id) evs).
Proof. exact c72_counts_ok. Qed.
Print Assumptions C72_counts.
Theorem C72_hash : forall T (i : iso T) seconds slots f0 m b a name bootname id h evs f' run, iso_law i seconds -> unique_names slots ->
  service_start i false slots b a (FGood (save_globally i f0 slots m)) = (evs, f', run) -> In (LBooted name bootname id h) evs ->
  forall r, m name = Some r -> rstat_ok r -> h = match rs_hash r with Some x => x | None => "unknown"%string end.
Proof. exact c72_hash_ok. Qed.
Print Assumptions C72_hash.
Theorem C72_no_boot_id : forall T (i : iso T) slots b a f, bo_id b = None ->
  fst (fst (service_start i false slots b a f)) = [] /\ snd (fst (service_start i false slots b a f)) = f.
Proof. exact c72_no_boot_id_ok. Qed.
Print Assumptions C72_no_boot_id.
(** The service runs whatever happens to the status file, unless the system goes down meanwhile. *)
Theorem C72_runs : forall T (i : iso T) per_slot slots b a f,
  snd (service_start i per_slot slots b a f) = true <->
  known_slot slots b /\ sa_artifacts a = true /\
  (sa_save a = SaveCrash -> per_slot = true \/ bo_id b = None \/ system_load f = bo_id b).
Proof. exact c72_runs_ok. Qed.
Print Assumptions C72_runs.
Theorem C72_links : forall W slots st repos (before : links),
  let after := create_run_links true true W slots st repos before in
  (forall booted, (forall s, In s slots -> st (sl_name s) = ST_BOOTED -> s = booted) ->
   forall path,
   (* what is there now is one of these, and what can be done is done *)
   (exists s, In s slots /\ st (sl_name s) <> ST_INACTIVE /\ path = ("slots/active/" ++ sl_class s)%string /\ W path = true /\ after path = Some (sl_device s)) \/
   (exists r, In r repos /\ path = ("artifacts/" ++ re_name r)%string /\ W path = true /\
      ((re_parent r = false /\ after path = Some (re_path r)) \/
       (re_parent r = true /\ In booted slots /\ st (sl_name booted) = ST_BOOTED /\ after path = Some (re_path r ++ "/" ++ sl_name booted)%string))) \/
   (after path = before path /\
    (forall s, In s slots -> st (sl_name s) <> ST_INACTIVE -> path = ("slots/active/" ++ sl_class s)%string -> W path = false) /\
    (forall r, In r repos -> path = ("artifacts/" ++ re_name r)%string -> re_parent r = false \/ (In booted slots /\ st (sl_name booted) = ST_BOOTED) -> W path = false))).
Proof. exact c72_links_ok. Qed.
Print Assumptions C72_links.
Theorem C72_active_link : forall realdev bootslot slots st repos W (before : links) s, unique_names slots ->
  determine_slot_states realdev (Some bootslot) slots = Ok st ->
  In s slots -> st (sl_name s) <> ST_INACTIVE -> (forall s', In s' slots -> st (sl_name s') <> ST_INACTIVE -> sl_class s' = sl_class s -> s' = s) ->
  W ("slots/active/" ++ sl_class s)%string = true ->
  create_run_links true true W slots st repos before ("slots/active/" ++ sl_class s)%string = Some (sl_device s).
Proof. exact c72_active_link_ok. Qed.
Print Assumptions C72_active_link.
Theorem C72_two_active_refuted : exists slots slots' st, Permutation slots slots' /\ unique_names slots /\ wf_parents slots /\
  determine_slot_states (fun d => d) (Some "A"%string) slots = Ok st /\
  create_run_links true true (fun _ => true) slots st [] (fun _ => None) "slots/active/app" <>
  create_run_links true true (fun _ => true) slots' st [] (fun _ => None) "slots/active/app".
Proof. exact c72_two_active_refuted. Qed.
Print Assumptions C72_two_active_refuted.

Definition ex72_slots : list slot :=
  [mkSlot "rootfs.0" "rootfs" "/dev/a" "ext4" (Some "A"%string) None false false; mkSlot "rootfs.1" "rootfs" "/dev/b" "ext4" (Some "B"%string) None false false;
   mkSlot "app.0" "app" "/dev/c" "ext4" None (Some "rootfs.0"%string) false false].
Definition ex72_boot (id bs : string) : booting := mkBooting (Some id) (Some bs) (fun d => d).
Definition ex72_start (s : saving) : sstep (N * N) := StStart (mkStarting true s).
Definition ex72_stat : statuses (N * N) := fun n => if String.eqb n "rootfs.1" then Some ex_rec else None.
(** three boots: power lost in the first start; an installation; the new slot *)
Definition ex72_history : list (booting * list (sstep (N * N))) :=
  [(ex72_boot "id1" "A", [ex72_start SaveCrash; ex72_start SaveOk; StSlots ex72_stat; ex72_start SaveOk; ex72_start SaveFails]);
   (ex72_boot "id2" "_external_", [StStart (mkStarting false SaveOk); ex72_start SaveOk]);
   (ex72_boot "id3" "B", [ex72_start SaveOk; ex72_start SaveOk]);
   (ex72_boot "id4" "Z", [ex72_start SaveOk])].
Example C72_once_example : unique_names ex72_slots /\ NoDup ["id1"; "id2"; "id3"; "id4"]%string /\
  map (fun x => bo_id (fst x)) ex72_history = map Some ["id1"; "id2"; "id3"; "id4"]%string /\ (forall id, system_load FBroken = Some id -> ~ In id ["id1"; "id2"; "id3"; "id4"]%string) /\
  run_boots ex_iso ex72_slots FBroken ex72_history =
    [[LBooted "rootfs.0" "A" "id1" "unknown"; LBooted "rootfs.0" "A" "id1" "unknown"; LRestarted; LRestarted];
     [LExternal "id2"];
     [LBooted "rootfs.1" "B" "id3" (match rs_hash ex_rec with Some h => h | None => "unknown" end); LRestarted];
     []].
Proof.
  split; [unfold unique_names; cbn; repeat constructor; cbn; intuition discriminate|]. split; [repeat constructor; cbn; intuition discriminate|].
  split; [reflexivity|]. split; [discriminate|]. vm_compute. reflexivity.
Qed.
Example C72_counts_example : known_slot ex72_slots (ex72_boot "id1" "A") /\ ~ known_slot ex72_slots (ex72_boot "id4" "Z").
Proof.
  split.
  - exists "A"%string. split; [reflexivity|]. right. eexists. split; [now left|]. now left.
  - intros (bs & H & [E|(s & [<-|[<-|[<-|[]]]] & [E|[E|E]])]); cbn in H; injection H as <-; discriminate E.
Qed.
Example C72_links_example : exists st, determine_slot_states (fun d => d) (Some "A"%string) ex72_slots = Ok st /\
  let l := create_run_links true true (fun _ => true) ex72_slots st [mkRepo "files" "/data/files" false; mkRepo "trees" "/data/trees" true] (fun _ => None) in
  l "slots/active/rootfs"%string = Some "/dev/a"%string /\ l "slots/active/app"%string = Some "/dev/c"%string /\
  l "artifacts/files"%string = Some "/data/files"%string /\ l "artifacts/trees"%string = Some "/data/trees/rootfs.0"%string.
Proof. eexists. split; [reflexivity|]. vm_compute. repeat split. Qed.
Example C72_hash_example : iso_law ex_iso ex_seconds /\ rstat_ok ex_rec.
Proof. split; [exact ex_iso_law|exact ex_rec_ok]. Qed.
