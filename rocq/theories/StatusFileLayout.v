(** C07: the documented layout of status files (docs/reference.rst, "Slot status"). *)
From Verif Require Import Base BaseLemmas Slot KeyFile KeyFileLemmas Manifest StatusFile StatusFileSpec StatusFileProofs.

(** the keys of the section of one slot; [get]: value of a key *)
Definition documented {T} (i : iso T) (get : string -> option string) (r : rstat T) : Prop :=
  get "bundle.compatible" = rs_compatible r /\ get "bundle.version" = rs_version r /\
  get "bundle.description" = rs_description r /\ get "bundle.build" = rs_build r /\ get "bundle.hash" = rs_hash r /\
  get "status" = rs_status r /\ get "sha256" = rs_digest r /\
  (forall d, rs_digest r = Some d -> (0 <= rs_size r < 2 ^ 64)%Z -> get "size" = Some (print_num 10 (Z.to_N (rs_size r)))) /\
  (rs_digest r = None -> get "size" = None) /\
  get "installed.transaction" = rs_txn r /\
  get "installed.timestamp" = option_map (iso_fmt i) (rs_installed r) /\
  get "installed.count" = (if N.eqb (rs_icount r) 0 then None else Some (print_num 10 (rs_icount r))) /\
  get "activated.timestamp" = option_map (iso_fmt i) (rs_activated r) /\
  get "activated.count" = (if N.eqb (rs_acount r) 0 then None else Some (print_num 10 (rs_acount r))).

Lemma set_documented {T} (i : iso T) kf g r : documented i (kf_get (set_status i kf g r) g) r.
Proof.
  assert (C : forall n, (if (0 <? n)%N then Some (print_num 10 n) else None) = (if N.eqb n 0 then None else Some (print_num 10 n))) by (intros [|p]; reflexivity).
  unfold documented.
  repeat match goal with |- _ /\ _ => split end;
    try (erewrite set_status_get by reflexivity; first [reflexivity | apply C]).
  - intros d E Z. erewrite set_status_get by reflexivity. rewrite E. unfold of_goffset. now rewrite Z.mod_small.
  - intros E. erewrite set_status_get by reflexivity. now rewrite E.
Qed.

Lemma c07_layout_ok : forall T (i : iso T),
  (forall r, documented i (kf_get (slot_file_write i r) "slot") r) /\
  (forall slots f (m : statuses T) s r, unique_names slots -> In s slots -> m (sl_name s) = Some r ->
     documented i (kf_get (save_globally i f slots m) ("slot." ++ sl_name s)) r).
Proof.
  intros T i. split; [intros; apply set_documented|].
  intros slots f m s r U Hin Hm.
  destruct (save_slot i m slots (init_shared f "slot.") s r U Hin Hm) as (kf0 & E).
  pose proof (set_documented i kf0 (slot_group (sl_name s)) r) as D.
  unfold documented in *. change (save_globally i f slots m) with (fold_left (save_step i m) slots (init_shared f "slot.")).
  change ("slot." ++ sl_name s)%string with (slot_group (sl_name s)). rewrite !E. exact D.
Qed.
