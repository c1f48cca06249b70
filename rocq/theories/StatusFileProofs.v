From Verif Require Import Base BaseLemmas Slot KeyFile KeyFileLemmas Manifest StatusFile StatusFileSpec.

Lemma kf_get_remove_eq kf g k : kf_get (kf_remove_key kf g k) g k = None.
Proof.
  unfold kf_remove_key, kf_get, kf_group. destruct (assoc g kf) as [l|] eqn:E; [|now rewrite E].
  rewrite assoc_set_eq. apply assoc_remove_eq.
Qed.
Lemma kf_get_remove_neq kf g k g' k' : (g <> g' \/ k <> k') -> kf_get (kf_remove_key kf g k) g' k' = kf_get kf g' k'.
Proof.
  intros H. unfold kf_remove_key, kf_get, kf_group. destruct (assoc g kf) as [l|] eqn:E; [|reflexivity].
  destruct (string_dec g g') as [<-|N].
  - rewrite assoc_set_eq, E. apply assoc_remove_neq. tauto.
  - now rewrite assoc_set_neq.
Qed.

Lemma set_or_remove_get g kf kv k : kf_get (set_or_remove g kf kv) g k = if String.eqb (fst kv) k then snd kv else kf_get kf g k.
Proof.
  unfold set_or_remove. destruct (String.eqb_spec (fst kv) k) as [<-|N]; destruct (snd kv).
  - apply kf_get_set_eq.
  - apply kf_get_remove_eq.
  - now apply kf_get_set_neq; right.
  - now apply kf_get_remove_neq; right.
Qed.
Lemma set_or_remove_other g kf kv g' k : g <> g' -> kf_get (set_or_remove g kf kv) g' k = kf_get kf g' k.
Proof. intros N. unfold set_or_remove. destruct (snd kv); [apply kf_get_set_neq|apply kf_get_remove_neq]; auto. Qed.

Lemma fields_other l : forall kf g g' k, g <> g' -> kf_get (fold_left (set_or_remove g) l kf) g' k = kf_get kf g' k.
Proof. induction l as [|kv l IH]; intros kf g g' k N; [reflexivity|]. cbn. rewrite IH by exact N. now apply set_or_remove_other. Qed.
Lemma fields_get l : forall kf g k, NoDup (map fst l) ->
  kf_get (fold_left (set_or_remove g) l kf) g k = match assoc k l with Some v => v | None => kf_get kf g k end.
Proof.
  induction l as [|[k' v] l IH]; intros kf g k H; [reflexivity|]. cbn [fold_left]. inversion H; subst.
  rewrite IH by assumption. cbn [assoc]. rewrite set_or_remove_get. cbn [fst snd].
  destruct (String.eqb_spec k' k) as [<-|N].
  - replace (assoc k' l) with (@None (option string)); [reflexivity|]. symmetry. now apply assoc_none.
  - reflexivity.
Qed.

Lemma fields_nodup {T} (i : iso T) r : NoDup (map fst (status_fields i r)).
Proof. cbn. repeat constructor; cbn; intuition discriminate. Qed.

Lemma set_status_get {T} (i : iso T) kf g r k v : assoc k (status_fields i r) = Some v ->
  kf_get (set_status i kf g r) g k = v.
Proof. intros H. unfold set_status. rewrite fields_get by apply fields_nodup. now rewrite H. Qed.
Lemma set_status_other {T} (i : iso T) kf g r g' k : g <> g' -> kf_get (set_status i kf g r) g' k = kf_get kf g' k.
Proof. apply fields_other. Qed.

Lemma consume_opt_get kf g k o : kf_get kf g k = o -> o <> Some "" -> kf_consume_opt kf g k = o.
Proof. unfold kf_consume_opt, kf_consume. intros -> H. destruct o as [[|c s]|]; congruence. Qed.

Lemma goffset_round z : (- 2 ^ 63 <= z < 2 ^ 63)%Z -> to_goffset (of_goffset z) = z.
Proof.
  intros H. unfold to_goffset, of_goffset.
  assert (P : (0 < 2 ^ 64)%Z) by lia. pose proof (Z.mod_pos_bound z (2 ^ 64) P) as B.
  destruct (Z.leb_spec 0 z).
  - rewrite (Z.mod_small z) by lia. destruct (N.ltb_spec (Z.to_N z) (2 ^ 63)); lia.
  - assert (E : (z mod 2 ^ 64 = z + 2 ^ 64)%Z) by (symmetry; apply (Z.mod_unique_pos _ _ (-1)); lia).
    rewrite E. destruct (N.ltb_spec (Z.to_N (z + 2 ^ 64)) (2 ^ 63)); lia.
Qed.
Lemma of_goffset_bound z : (of_goffset z < 2 ^ 64)%N.
Proof. unfold of_goffset. pose proof (Z.mod_pos_bound z (2 ^ 64) ltac:(lia)). lia. Qed.

Lemma get_set_status {T} (i : iso T) seconds kf g r : iso_law i seconds -> rstat_ok r ->
  get_status i (set_status i kf g r) g = persisted seconds r.
Proof.
  intros L [S Z IC AC]. unfold get_status, persisted.
  assert (ST : forall k o, assoc k (status_fields i r) = Some o -> o <> Some "" -> kf_consume_opt (set_status i kf g r) g k = o).
  { intros k o A N. apply consume_opt_get; [|exact N]. now apply set_status_get. }
  assert (NE : forall o, In o [rs_compatible r; rs_version r; rs_description r; rs_build r; rs_hash r; rs_status r; rs_digest r] -> o <> Some "").
  { intros o Ho ->. now apply (S _ Ho). }
  rewrite (ST "bundle.compatible" (rs_compatible r)) by (try reflexivity; apply NE; cbn; tauto).
  rewrite (ST "bundle.version" (rs_version r)) by (try reflexivity; apply NE; cbn; tauto).
  rewrite (ST "bundle.description" (rs_description r)) by (try reflexivity; apply NE; cbn; tauto).
  rewrite (ST "bundle.build" (rs_build r)) by (try reflexivity; apply NE; cbn; tauto).
  rewrite (ST "bundle.hash" (rs_hash r)) by (try reflexivity; apply NE; cbn; tauto).
  rewrite (ST "status" (rs_status r)) by (try reflexivity; apply NE; cbn; tauto).
  rewrite (ST "sha256" (rs_digest r)) by (try reflexivity; apply NE; cbn; tauto).
  assert (TS : forall k o, assoc k (status_fields i r) = Some (option_map (iso_fmt i) o) ->
     get_stamp i (set_status i kf g r) g k = option_map seconds o).
  { intros k o A. unfold get_stamp. rewrite (ST _ _ A).
    - destruct o as [t|]; [|reflexivity]. cbn. now destruct (L t) as [-> _].
    - destruct o as [t|]; [|discriminate]. cbn. intros E. injection E as E. now destruct (L t). }
  rewrite (TS "installed.timestamp" (rs_installed r)) by reflexivity.
  rewrite (TS "activated.timestamp" (rs_activated r)) by reflexivity.
  assert (CN : forall k n, assoc k (status_fields i r) = Some (if (0 <? n)%N then Some (print_num 10 n) else None) -> (n < 2 ^ 32)%N ->
     get_count (set_status i kf g r) g k = n).
  { intros k n A B. unfold get_count, get_u64. rewrite (set_status_get _ _ _ _ _ _ A).
    destruct (N.ltb_spec 0 n).
    - rewrite strtoull_all_print by lia. destruct (N.ltb_spec (2 ^ 32 - 1) n); lia.
    - assert (n = 0)%N as -> by lia. reflexivity. }
  rewrite (CN "installed.count" (rs_icount r)) by (try reflexivity; assumption).
  rewrite (CN "activated.count" (rs_acount r)) by (try reflexivity; assumption).
  f_equal. destruct (rs_digest r) as [d|] eqn:D; [|reflexivity].
  unfold get_u64. rewrite (set_status_get _ _ _ _ "size" (Some (print_num 10 (of_goffset (rs_size r))))).
  - rewrite strtoull_all_print by apply of_goffset_bound. now apply goffset_round.
  - cbn. rewrite D. reflexivity.
Qed.

(** per-slot status file *)
Lemma c07_local_ok : forall T (i : iso T) seconds r, iso_law i seconds -> rstat_ok r ->
  slot_file_read i (FGood (slot_file_write i r)) = Ok (persisted seconds r).
Proof. intros. unfold slot_file_read, slot_file_write. f_equal. now apply get_set_status. Qed.

(** ** central file *)
Lemma assoc_filter_key {B} (p : string -> bool) (l : list (string * B)) k : p k = true ->
  assoc k (filter (fun e => p (fst e)) l) = assoc k l.
Proof.
  intros H. induction l as [|[k' v] l IH]; [reflexivity|]. cbn. destruct (String.eqb_spec k' k) as [->|N].
  - rewrite H. cbn. now rewrite String.eqb_refl.
  - destruct (p k'); cbn; [|exact IH]. destruct (String.eqb_spec k' k); [contradiction|exact IH].
Qed.
Lemma init_shared_get f p g k : has_prefix p g = false -> kf_get (init_shared f p) g k = kf_get (sfile_kf f) g k.
Proof.
  intros H. unfold kf_get, kf_group, init_shared.
  rewrite (assoc_filter_key (fun x => negb (has_prefix p x))) by now rewrite H. reflexivity.
Qed.

Lemma get_status_nogroup {T} (i : iso T) kf g : kf_group kf g = None -> get_status i kf g = rstat0.
Proof.
  intros H. assert (G : forall k, kf_get kf g k = None) by (intros; unfold kf_get; now rewrite H).
  unfold get_status, kf_consume_opt, kf_consume, get_stamp, get_count, get_u64, kf_consume_opt, kf_consume. now rewrite !G.
Qed.

Lemma get_status_ext {T} (i : iso T) kf kf' g : (forall k, kf_get kf g k = kf_get kf' g k) -> get_status i kf g = get_status i kf' g.
Proof. intros H. unfold get_status, kf_consume_opt, kf_consume, get_stamp, get_count, get_u64, kf_consume_opt, kf_consume. now rewrite !H. Qed.

Lemma slot_group_inj a b : slot_group a = slot_group b -> a = b.
Proof. unfold slot_group. intros H. now injection H. Qed.

Definition save_step {T} (i : iso T) (m : statuses T) (kf : keyfile) (s : slot) : keyfile :=
  match m (sl_name s) with Some r => set_status i kf (slot_group (sl_name s)) r | None => kf end.

Lemma save_other {T} (i : iso T) m slots : forall kf g k, (forall s, In s slots -> slot_group (sl_name s) <> g) ->
  kf_get (fold_left (save_step i m) slots kf) g k = kf_get kf g k.
Proof.
  induction slots as [|s l IH]; intros kf g k H; [reflexivity|]. cbn. rewrite IH by (intros; apply H; now right).
  unfold save_step. destruct (m (sl_name s)); [|reflexivity]. apply set_status_other. apply H. now left.
Qed.
Lemma save_slot {T} (i : iso T) m slots : forall kf s r, unique_names slots -> In s slots -> m (sl_name s) = Some r ->
  exists kf0, forall k, kf_get (fold_left (save_step i m) slots kf) (slot_group (sl_name s)) k
                      = kf_get (set_status i kf0 (slot_group (sl_name s)) r) (slot_group (sl_name s)) k.
Proof.
  induction slots as [|t l IH]; intros kf s r U Hin Hm; [destruct Hin|]. cbn. inversion U as [|? ? N U']; subst.
  destruct Hin as [->|Hin].
  - exists kf. intros k. rewrite save_other.
    + unfold save_step. now rewrite Hm.
    + intros x Hx E. apply slot_group_inj in E. apply N. rewrite <- E. now apply in_map.
  - apply IH; assumption.
Qed.

Lemma slots_mem slots n : existsb (fun s => String.eqb (sl_name s) n) slots = true <-> exists s, In s slots /\ sl_name s = n.
Proof.
  rewrite existsb_exists. split; intros (s & H & E); exists s; split; auto; now apply String.eqb_eq.
Qed.

Lemma c07_global_ok : forall T (i : iso T) seconds slots f (m : statuses T),
  iso_law i seconds -> unique_names slots ->
  let f' := save_globally i f slots m in
  (* every slot that had a status gets it back after a restart *)
  (forall s r, In s slots -> m (sl_name s) = Some r -> rstat_ok r ->
     load_globally i (FGood f') slots (fun _ => None) (sl_name s) = Some (persisted seconds r)) /\
  (* everything that is not about slots is unchanged *)
  (forall g k, has_prefix "slot." g = false -> kf_get f' g k = kf_get (sfile_kf f) g k) /\
  (* the remaining groups are those of configured slots *)
  (forall g k v, has_prefix "slot." g = true -> kf_get f' g k = Some v -> exists s, In s slots /\ g = slot_group (sl_name s)).
Proof.
  intros T i seconds slots f m L U f'. split; [|split].
  - intros s r Hin Hm Hok. unfold load_globally.
    assert (E : existsb (fun s0 => String.eqb (sl_name s0) (sl_name s)) slots = true) by (apply slots_mem; eauto). rewrite E.
    destruct (save_slot i m slots (init_shared f "slot.") s r U Hin Hm) as [kf0 G].
    change (fold_left (save_step i m) slots (init_shared f "slot.")) with f' in G.
    f_equal. cbn [sfile_kf].
    assert (X : get_status i f' (slot_group (sl_name s)) = persisted seconds r).
    { rewrite (get_status_ext i _ _ _ G). now apply get_set_status. }
    destruct (kf_group f' (slot_group (sl_name s))) eqn:KG; [exact X|].
    rewrite <- X. symmetry. now apply get_status_nogroup.
  - intros g k H. unfold f', save_globally. change (fun kf s => _) with (save_step i m).
    rewrite save_other; [now apply init_shared_get|]. intros s _ <-. cbn in H. discriminate.
  - intros g k v H G.
    destruct (existsb (fun s => String.eqb (slot_group (sl_name s)) g) slots) eqn:E.
    + apply existsb_exists in E as (s & Hs & E). apply String.eqb_eq in E. eauto.
    + exfalso. unfold f', save_globally in G. change (fun kf s => _) with (save_step i m) in G. rewrite save_other in G.
      * unfold kf_get, kf_group in G. destruct (assoc g (init_shared f "slot.")) eqn:A; [|discriminate].
        apply assoc_in in A. unfold init_shared in A. apply filter_In in A as [_ A]. cbn [fst] in A. now rewrite H in A.
      * intros s Hs Es. rewrite <- not_true_iff_false in E. apply E. apply existsb_exists. exists s. split; [exact Hs|].
        now apply String.eqb_eq.
Qed.

Lemma g_ascii_strtoull_bound b s : (g_ascii_strtoull b s < 2 ^ 64)%N.
Proof.
  unfold g_ascii_strtoull. cbv zeta.
  match goal with |- context [match ?p with pair _ _ => _ end] => destruct p as [ng st] end.
  match goal with |- context [horner b 0 ?x] => generalize (horner b 0 x) end. intros v. unfold ullong_max.
  destruct (N.ltb_spec (2 ^ 64 - 1) v); [lia|]. destruct ng; [|lia].
  apply N.mod_lt. lia.
Qed.

(** loaded records are fit for saving, so that the status of other slots survives any
    number of updates *)
Lemma get_status_ok {T} (i : iso T) kf g : rstat_ok (get_status i kf g).
Proof.
  constructor.
  - intros s H. unfold get_status in H. cbn in H.
    assert (G : forall k, Some s = kf_consume_opt kf g k -> s <> "").
    { unfold kf_consume_opt, kf_consume. intros k. destruct (kf_get kf g k) as [[|c x]|]; intros E; congruence. }
    repeat (destruct H as [H|H]; [symmetry in H; eapply G; exact H|]). destruct H.
  - unfold get_status. cbn [rs_size]. destruct (kf_consume_opt kf g "sha256"); [|lia].
    assert (B : (get_u64 kf g "size" < 2 ^ 64)%N).
    { unfold get_u64. destruct (kf_get kf g "size"); [|lia]. unfold strtoull_all. 
      match goal with |- context [if ?b then _ else _] => destruct b end; [|lia].
      apply g_ascii_strtoull_bound. }
    unfold to_goffset. destruct (N.ltb_spec (get_u64 kf g "size") (2 ^ 63)); lia.
  - unfold get_status. cbn [rs_icount]. unfold get_count. destruct (N.ltb_spec (2 ^ 32 - 1) (get_u64 kf g "installed.count")); lia.
  - unfold get_status. cbn [rs_acount]. unfold get_count. destruct (N.ltb_spec (2 ^ 32 - 1) (get_u64 kf g "activated.count")); lia.
Qed.

Lemma load_ok {T} (i : iso T) f slots n r : load_globally i f slots (fun _ => None) n = Some r -> rstat_ok r.
Proof.
  unfold load_globally. destruct (existsb _ slots); [|discriminate]. intros E. injection E as <-.
  destruct (kf_group (sfile_kf f) (slot_group n)) eqn:G; [apply get_status_ok|].
  rewrite <- (get_status_nogroup i (sfile_kf f) (slot_group n) G). apply get_status_ok.
Qed.
Lemma load_some {T} (i : iso T) f slots s : In s slots -> exists r, load_globally i f slots (fun _ => None) (sl_name s) = Some r.
Proof.
  intros H. unfold load_globally.
  assert (E : existsb (fun s0 => String.eqb (sl_name s0) (sl_name s)) slots = true) by (apply slots_mem; eauto). rewrite E. eauto.
Qed.

Lemma c07_update_ok : forall T (i : iso T) seconds slots f s r,
  iso_law i seconds -> unique_names slots -> In s slots -> rstat_ok r ->
  let before := load_globally i f slots (fun _ => None) in
  let f' := save_globally i f slots (upd before (sl_name s) (Some r)) in
  let after := load_globally i (FGood f') slots (fun _ => None) in
  after (sl_name s) = Some (persisted seconds r) /\
  (forall t, In t slots -> sl_name t <> sl_name s -> exists rt,
     before (sl_name t) = Some rt /\ after (sl_name t) = Some (persisted seconds rt)) /\
  system_load (FGood f') = kf_get (sfile_kf f) "system" "boot-id".
Proof.
  intros T i seconds slots f s r L U Hs Hr before f' after.
  destruct (c07_global_ok T i seconds slots f (upd before (sl_name s) (Some r)) L U) as (G & O & _).
  split; [|split].
  - apply G; [exact Hs| |exact Hr]. unfold upd. now rewrite String.eqb_refl.
  - intros t Ht N. destruct (load_some i f slots t Ht) as [rt Ert]. exists rt. split; [exact Ert|].
    apply G; [exact Ht| |now apply load_ok in Ert].
    unfold upd. destruct (String.eqb_spec (sl_name s) (sl_name t)); [congruence|exact Ert].
  - cbn [system_load]. now apply O.
Qed.

(** the time stamps of loaded records have no fractions, so nothing more is lost later *)
Lemma c07_stable_ok : forall T (seconds : T -> T) r, (forall t, seconds (seconds t) = seconds t) ->
  persisted seconds (persisted seconds r) = persisted seconds r.
Proof.
  intros T seconds [c v d b h st dg sz tx ins ic ac acn] H. unfold persisted. cbn [rs_compatible rs_version rs_description rs_build rs_hash rs_status rs_digest rs_size rs_installed rs_icount rs_activated rs_acount].
  f_equal; [destruct dg; reflexivity| |]; [destruct ins|destruct ac]; cbn; now rewrite ?H.
Qed.

Lemma c07_system_ok : forall f id,
  system_load (FGood (system_save f id)) = Some id /\
  forall g k, has_prefix "system" g = false -> kf_get (system_save f id) g k = kf_get (sfile_kf f) g k.
Proof.
  intros f id. split.
  - cbn [system_load]. unfold system_save. apply kf_get_set_eq.
  - intros g k H. unfold system_save. rewrite kf_get_set_neq.
    + now apply init_shared_get.
    + left. intros <-. discriminate.
Qed.

(** a broken status file loses all records but never prevents new ones *)
Lemma c07_broken_ok : forall T (i : iso T) slots s, In s slots ->
  load_globally i FBroken slots (fun _ => None) (sl_name s) = Some rstat0 /\
  forall m, save_globally i FBroken slots m = save_globally i FMissing slots m.
Proof.
  intros T i slots s H. split; [|reflexivity]. unfold load_globally.
  assert (E : existsb (fun s0 => String.eqb (sl_name s0) (sl_name s)) slots = true) by (apply slots_mem; eauto). rewrite E. reflexivity.
Qed.

(** an example clock: seconds and microseconds *)
Definition ex_iso : iso (N * N) := mkIso
  (fun t => print_num 10 (fst t mod 2 ^ 63))
  (fun s => option_map (fun n => (n, 0%N)) (strtoull_all s)).
Definition ex_seconds (t : N * N) : N * N := ((fst t mod 2 ^ 63)%N, 0%N).
Lemma ex_iso_law : iso_law ex_iso ex_seconds.
Proof.
  intros [n u]. cbn [ex_iso iso_parse iso_fmt fst].
  assert (B : (n mod 2 ^ 63 < 2 ^ 63)%N) by (apply N.mod_lt; lia).
  assert (P : strtoull_all (print_num 10 (n mod 2 ^ 63)) = Some (n mod 2 ^ 63)%N) by (apply strtoull_all_print; lia).
  split; [now rewrite P|]. intros E. rewrite E in P. discriminate.
Qed.

Definition ex_s := mkSlot "rootfs.0" "rootfs" "/dev/a" "ext4" (Some "A") None false true.
Definition ex_t := mkSlot "rootfs.1" "rootfs" "/dev/b" "ext4" (Some "B") None false true.
Definition ex_rec : rstat (N * N) :=
  mkRstat (Some "dev") (Some "1.2") None (Some "b7") (Some "0a") (Some "ok") (Some "e3b0") 4096 (Some "77aa")
    (Some (1700000000, 5)%N) 3 None 0.
Lemma ex_rec_ok : rstat_ok ex_rec.
Proof.
  constructor; [|cbn [rs_size ex_rec]; lia|cbn [rs_icount ex_rec]; lia|cbn [rs_acount ex_rec]; lia].
  intros s H. cbn [In ex_rec rs_compatible rs_version rs_description rs_build rs_hash rs_status rs_digest] in H.
  intros ->. intuition discriminate.
Qed.
Definition ex_file : sfile := FGood [("system", [("boot-id", "b1")]);
  ("slot.rootfs.1", [("status", "ok"); ("installed.transaction", "4b6a"); ("installed.count", "2")])].

(** the transaction that installed a slot is forgotten when another slot is updated after a
    restart *)
Lemma c07_transaction_refuted : exists slots (s t : slot) (f : sfile) (r : rstat (N * N)) (i : iso (N * N)) seconds,
  iso_law i seconds /\ unique_names slots /\ In s slots /\ In t slots /\ sl_name t <> sl_name s /\ rstat_ok r /\
  let before := load_globally i f slots (fun _ => None) in
  let f' := save_globally i f slots (upd before (sl_name s) (Some r)) in
  kf_get (sfile_kf f) (slot_group (sl_name t)) "installed.transaction" = Some "4b6a" /\
  kf_get f' (slot_group (sl_name t)) "installed.transaction" = None.
Proof.
  exists [ex_s; ex_t], ex_s, ex_t, ex_file, ex_rec, ex_iso, ex_seconds.
  split; [exact ex_iso_law|]. split; [repeat constructor; cbn; intuition discriminate|].
  split; [now left|]. split; [right; now left|]. split; [discriminate|]. split; [exact ex_rec_ok|].
  split; reflexivity.
Qed.
