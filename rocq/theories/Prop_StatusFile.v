(** C07: slot status records survive restarts. *)
From Verif Require Import Base Slot KeyFile Manifest StatusFile StatusFileSpec StatusFileProofs StatusFileLayout.

Theorem C07_local : forall T (i : iso T) seconds r, iso_law i seconds -> rstat_ok r ->
  slot_file_read i (FGood (slot_file_write i r)) = Ok (persisted seconds r).
Proof. exact c07_local_ok. Qed.
Print Assumptions C07_local.
Theorem C07_global : forall T (i : iso T) seconds slots f (m : statuses T),
  iso_law i seconds -> unique_names slots ->
  let f' := save_globally i f slots m in
  (* every slot that had a status gets it back after a restart *)
  (forall s r, In s slots -> m (sl_name s) = Some r -> rstat_ok r ->
     load_globally i (FGood f') slots (fun _ => None) (sl_name s) = Some (persisted seconds r)) /\
  (* everything that is not about slots is unchanged *)
  (forall g k, has_prefix "slot." g = false -> kf_get f' g k = kf_get (sfile_kf f) g k) /\
  (* the remaining groups are those of configured slots *)
  (forall g k v, has_prefix "slot." g = true -> kf_get f' g k = Some v -> exists s, In s slots /\ g = slot_group (sl_name s)).
Proof. exact c07_global_ok. Qed.
Print Assumptions C07_global.
Theorem C07_update : forall T (i : iso T) seconds slots f s r,
  iso_law i seconds -> unique_names slots -> In s slots -> rstat_ok r ->
  let before := load_globally i f slots (fun _ => None) in
  let f' := save_globally i f slots (upd before (sl_name s) (Some r)) in
  let after := load_globally i (FGood f') slots (fun _ => None) in
  after (sl_name s) = Some (persisted seconds r) /\
  (forall t, In t slots -> sl_name t <> sl_name s -> exists rt,
     before (sl_name t) = Some rt /\ after (sl_name t) = Some (persisted seconds rt)) /\
  system_load (FGood f') = kf_get (sfile_kf f) "system" "boot-id".
Proof. exact c07_update_ok. Qed.
Print Assumptions C07_update.
Theorem C07_stable : forall T (seconds : T -> T) r, (forall t, seconds (seconds t) = seconds t) ->
  persisted seconds (persisted seconds r) = persisted seconds r.
Proof. exact c07_stable_ok. Qed.
Print Assumptions C07_stable.
(** sections and keys are the documented ones *)
Theorem C07_layout : forall T (i : iso T),
  (forall r, documented i (kf_get (slot_file_write i r) "slot") r) /\
  (forall slots f (m : statuses T) s r, unique_names slots -> In s slots -> m (sl_name s) = Some r ->
     documented i (kf_get (save_globally i f slots m) ("slot." ++ sl_name s)) r).
Proof. exact c07_layout_ok. Qed.
Print Assumptions C07_layout.
Theorem C07_system : forall f id,
  system_load (FGood (system_save f id)) = Some id /\
  forall g k, has_prefix "system" g = false -> kf_get (system_save f id) g k = kf_get (sfile_kf f) g k.
Proof. exact c07_system_ok. Qed.
Print Assumptions C07_system.
Theorem C07_broken : forall T (i : iso T) slots s, In s slots ->
  load_globally i FBroken slots (fun _ => None) (sl_name s) = Some rstat0 /\
  forall m, save_globally i FBroken slots m = save_globally i FMissing slots m.
Proof. exact c07_broken_ok. Qed.
Print Assumptions C07_broken.
Theorem C07_transaction_refuted : exists slots (s t : slot) (f : sfile) (r : rstat (N * N)) (i : iso (N * N)) seconds,
  iso_law i seconds /\ unique_names slots /\ In s slots /\ In t slots /\ sl_name t <> sl_name s /\ rstat_ok r /\
  let before := load_globally i f slots (fun _ => None) in
  let f' := save_globally i f slots (upd before (sl_name s) (Some r)) in
  kf_get (sfile_kf f) (slot_group (sl_name t)) "installed.transaction" = Some "4b6a" /\
  kf_get f' (slot_group (sl_name t)) "installed.transaction" = None.
Proof. exact c07_transaction_refuted. Qed.
Print Assumptions C07_transaction_refuted.

(** the hypotheses hold for a concrete clock, record and file; the reloaded status *)
Example C07_example :
  iso_law ex_iso ex_seconds /\ rstat_ok ex_rec /\
  let before := load_globally ex_iso ex_file [ex_s; ex_t] (fun _ => None) in
  let f' := save_globally ex_iso ex_file [ex_s; ex_t] (upd before "rootfs.0" (Some ex_rec)) in
  let after := load_globally ex_iso (FGood f') [ex_s; ex_t] (fun _ => None) in
  after "rootfs.0" = Some (mkRstat (Some "dev") (Some "1.2") None (Some "b7") (Some "0a") (Some "ok") (Some "e3b0") 4096%Z None
                             (Some (1700000000, 0)%N) 3 None 0) /\
  after "rootfs.1" = Some (mkRstat None None None None None (Some "ok") None 0%Z None None 2 None 0) /\
  kf_get f' "system" "boot-id" = Some "b1".
Proof. split; [exact ex_iso_law|]. split; [exact ex_rec_ok|]. vm_compute. auto. Qed.
