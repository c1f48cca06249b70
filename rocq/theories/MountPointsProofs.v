From Verif Require Import Base BaseLemmas Slot Image Handlers Install InstallSpec InstallProofs InstallRun InstallRunSpec InstallRunProofs C01Proofs HttpProofs MountPoints MountPointsSpec.
Open Scope list_scope.

Lemma digits_app n r : all_chars is_digit n = true -> (match r with String c _ => is_digit c = false | EmptyString => True end) -> digits (n ++ r) = n.
Proof.
  induction n as [|c n IH]; intros H R; cbn in *.
  - destruct r as [|c r]; [reflexivity|]. cbn. now rewrite R.
  - apply andb_true_iff in H as [H1 H2]. rewrite H1, IH; auto.
Qed.
Lemma digit_is c : digit c <-> is_digit c = true.
Proof.
  unfold digit, is_digit. split.
  - intros H. repeat (destruct H as [<-|H]; [reflexivity|]). destruct H.
  - intros H. apply andb_true_iff in H as [H1 H2]. apply Nat.leb_le in H1, H2. rewrite <- (ascii_nat_embedding c).
    assert (X : exists k, k < 10 /\ nat_of_ascii c = 48 + k) by (exists (nat_of_ascii c - 48); lia). destruct X as (k & K & ->).
    do 10 (destruct k as [|k]; [cbn; tauto|]). lia.
Qed.
Lemma all_digits_chars s : all_digits s -> all_chars is_digit s = true.
Proof.
  intros [_ H]. induction s as [|c s IH]; [reflexivity|]. cbn [all_chars]. apply andb_true_iff. split.
  - apply digit_is, (H ""%string c s). reflexivity.
  - apply IH. intros a c' b E. apply (H (String c a) c' b). cbn. now rewrite E.
Qed.
Lemma loop_name_ordinary d : ordinary d -> loop_name d = None.
Proof.
  intros H. induction d as [|c d IH]; [reflexivity|]. cbn [loop_name].
  destruct (has_prefix "/dev/loop" (String c d)) eqn:P.
  - pose proof (has_prefix_split _ _ P) as P'. remember (sdrop 9 (String c d)) as r eqn:R.
    assert (DG : digits r = ""%string).
    { assert (R' : String c d = ("/dev/loop" ++ r)%string) by (rewrite R; exact P'). destruct r as [|x r]; [reflexivity|]. cbn [digits]. destruct (is_digit x) eqn:X; [|reflexivity].
      exfalso. apply (H ""%string x r); [now apply digit_is|exact R']. }
    rewrite DG. cbn [String.eqb negb andb]. apply IH. intros a x b D E. apply (H (String c a) x b D). cbn. now rewrite E.
  - cbn [andb]. apply IH. intros a x b D E. apply (H (String c a) x b D). cbn. now rewrite E.
Qed.
Lemma loop_name_none d : loop_name d = None -> ordinary d.
Proof.
  induction d as [|x d IH]; intros H a c b D E; [destruct a; discriminate E|]. cbn [loop_name] in H.
  destruct (has_prefix "/dev/loop" (String x d) && negb (String.eqb (digits (sdrop 9 (String x d))) ""))%bool eqn:T; [discriminate|].
  destruct a as [|y a].
  - rewrite E in T. change ("" ++ "/dev/loop" ++ String c b)%string with ("/dev/loop" ++ String c b)%string in T. rewrite has_prefix_make in T.
    change (sdrop 9 ("/dev/loop" ++ String c b)) with (String c b) in T. cbn [digits] in T. apply digit_is in D. rewrite D in T. discriminate T.
  - cbn in E. injection E as _ E. exact (IH H a c b D E).
Qed.
Lemma chars_all_digits s : s <> ""%string -> all_chars is_digit s = true -> all_digits s.
Proof.
  intros N H. split; [exact N|]. clear N. revert H. induction s as [|x s IH]; intros H a c b E; [destruct a; discriminate E|].
  cbn [all_chars] in H. apply andb_true_iff in H as [H1 H2]. destruct a as [|y a]; cbn in E; [injection E as <- _; now apply digit_is|].
  injection E as _ E. exact (IH H2 a c b E).
Qed.
Lemma loop_name_at n r : all_digits n -> (match r with String c _ => is_digit c = false | EmptyString => True end) ->
  loop_name ("/dev/loop" ++ n ++ r)%string = Some ("loop" ++ n)%string.
Proof.
  intros N' R. pose proof (all_digits_chars _ N') as D. destruct N' as [N _]. set (s := (n ++ r)%string). assert (DG : digits s = n) by (apply digits_app; assumption). clearbody s.
  change ("/dev/loop" ++ s)%string with (String "/" ("dev/loop" ++ s))%string. cbn [loop_name].
  change (String "/" ("dev/loop" ++ s))%string with ("/dev/loop" ++ s)%string. rewrite has_prefix_make.
  change (sdrop 9 ("/dev/loop" ++ s)) with s. rewrite DG. destruct n; [contradiction|]. reflexivity.
Qed.
Lemma resolve_mounts sys m d : mounts_device sys m d -> resolve_loop sys (me_device m) = Some d.
Proof.
  unfold resolve_loop. intros [[O <-]|(n & f & [N L] & S & ->)]; [now rewrite loop_name_ordinary|].
  destruct L as [->|(k & K & ->)].
  - replace ("/dev/loop" ++ n)%string with ("/dev/loop" ++ n ++ "")%string by now rewrite app_nil_r_s. rewrite loop_name_at; [now rewrite S|exact N|exact Logic.I].
  - rewrite loop_name_at; [now rewrite S|exact N|reflexivity].
Qed.
Lemma plain_resolves sys table : plain_table sys table -> forall m, In m table -> exists d, mounts_device sys m d /\ resolve_loop sys (me_device m) = Some d.
Proof.
  intros H m Hm. destruct (H m Hm) as [O|(n & f & L & S)].
  - exists (me_device m). assert (X : mounts_device sys m (me_device m)) by (left; auto). split; [exact X|now apply resolve_mounts].
  - exists (chomp f). assert (X : mounts_device sys m (chomp f)) by (right; exists n, f; auto). split; [exact X|now apply resolve_mounts].
Qed.

Lemma cleared slots : forall e s, In s slots -> clear_mounts slots e (sl_name s) = None.
Proof.
  unfold clear_mounts. assert (K : forall l (e : mounts) n, e n = None -> fold_left (fun e s => upd e (sl_name s) None) l e n = None).
  { induction l as [|x l IH]; intros e n E; [exact E|]. cbn. apply IH. destruct (string_dec (sl_name x) n) as [->|N]; [apply upd_eq|now rewrite upd_neq]. }
  induction slots as [|x slots IH]; intros e s; [intros []|]. intros [->|H]; cbn; [apply K, upd_eq|now apply IH].
Qed.
Lemma find_unique slots s : unique_devices slots -> In s slots -> find_by_device slots (sl_device s) = Some s.
Proof.
  unfold find_by_device. induction slots as [|x slots IH]; intros U H; [destruct H|]. inversion U as [|? ? N U' EQ]; clear EQ. cbn [find].
  destruct H as [->|H]; [now rewrite String.eqb_refl|].
  destruct (String.eqb_spec (sl_device x) (sl_device s)) as [E|_]; [|now apply IH]. exfalso. apply N. rewrite E. now apply in_map.
Qed.
Lemma find_device slots d s : find_by_device slots d = Some s -> In s slots /\ sl_device s = d.
Proof. intros H. apply find_some in H as [A B]. apply String.eqb_eq in B. auto. Qed.
Lemma names_eq slots s t : unique_names slots -> In s slots -> In t slots -> sl_name s = sl_name t -> s = t.
Proof.
  unfold unique_names. induction slots as [|x slots IH]; intros U; [intros []|]. inversion U as [|? ? N U' EQ]; clear EQ.
  intros [->|A] [->|B] E; auto; exfalso; apply N; [rewrite E|rewrite <- E]; now apply in_map.
Qed.

(** the first mount of its device, if any *)
Fixpoint first_mount (sys : string -> option string) (d : string) (table : list mentry) : option string :=
  match table with
  | [] => None
  | m :: r => if match resolve_loop sys (me_device m) with Some x => String.eqb x d | None => false end then Some (me_path m) else first_mount sys d r
  end.
Lemma scan_spec sys slots : unique_names slots -> unique_devices slots -> forall table e e', scan_mounts sys slots table e = (true, e') ->
  forall s, In s slots -> e' (sl_name s) = match e (sl_name s) with Some p => Some p | None => first_mount sys (sl_device s) table end.
Proof.
  intros UN UD. induction table as [|m table IH]; intros e e' H s Hs; cbn [scan_mounts first_mount] in *.
  - apply pair_equal_spec in H as [_ <-]. now destruct (e (sl_name s)).
  - destruct (resolve_loop sys (me_device m)) as [d|]; [|discriminate].
    destruct (find_by_device slots d) as [t|] eqn:F.
    + apply find_device in F as [Ht Ed]. destruct (e (sl_name t)) as [p|] eqn:Et.
      * rewrite (IH _ _ H s Hs). destruct (e (sl_name s)) as [q|] eqn:Es; [reflexivity|].
        destruct (String.eqb_spec d (sl_device s)) as [E|_]; [|reflexivity]. exfalso.
        assert (X : find_by_device slots (sl_device s) = Some s) by now apply find_unique.
        assert (Y : find_by_device slots (sl_device t) = Some t) by now apply find_unique. rewrite Ed, E in Y. rewrite X in Y. apply Some_inj in Y. subst t. congruence.
      * rewrite (IH _ _ H s Hs). destruct (string_dec (sl_name t) (sl_name s)) as [E|N].
        -- assert (t = s) by now apply (names_eq slots). subst t. rewrite upd_eq, Et. subst d. now rewrite String.eqb_refl.
        -- rewrite upd_neq by exact N. destruct (e (sl_name s)); [reflexivity|]. destruct (String.eqb_spec d (sl_device s)) as [E|_]; [|reflexivity].
           exfalso. apply N. f_equal. assert (X : find_by_device slots (sl_device s) = Some s) by now apply find_unique.
           assert (Y : find_by_device slots (sl_device t) = Some t) by now apply find_unique. rewrite Ed, E in Y. rewrite X in Y. apply Some_inj in Y. now symmetry.
    + rewrite (IH _ _ H s Hs). destruct (e (sl_name s)); [reflexivity|]. destruct (String.eqb_spec d (sl_device s)) as [E|_]; [|reflexivity].
      subst d. rewrite (find_unique slots s UD Hs) in F. discriminate.
Qed.
Lemma scan_ok sys slots : forall table e, fst (scan_mounts sys slots table e) = true <-> forall m, In m table -> resolve_loop sys (me_device m) <> None.
Proof.
  induction table as [|m table IH]; intros e; cbn [scan_mounts].
  - split; [intros _ m []|reflexivity].
  - destruct (resolve_loop sys (me_device m)) as [d|] eqn:E.
    + assert (X : forall e', fst (scan_mounts sys slots table e') = true <-> forall m0, In m0 (m :: table) -> resolve_loop sys (me_device m0) <> None).
      { intros e'. rewrite IH. split; [intros H x [<-|Hx]; [congruence|auto]|intros H x Hx; apply H; now right]. }
      destruct (find_by_device slots d) as [t|]; [destruct (e (sl_name t))|]; apply X.
    + split; [discriminate|]. intros H. exfalso. exact (H m (or_introl eq_refl) E).
Qed.
Lemma first_mount_spec sys table d p : plain_table sys table ->
  first_mount sys d table = Some p <-> exists before m after, table = before ++ m :: after /\ me_path m = p /\ mounts_device sys m d /\
     forall x, In x before -> ~ mounts_device sys x d.
Proof.
  intros P. induction table as [|m table IH]; cbn [first_mount].
  { split; [discriminate|]. intros (b & ? & ? & E & _). destruct b; discriminate. }
  assert (P' : plain_table sys table) by (intros x Hx; apply P; now right). specialize (IH P').
  destruct (plain_resolves _ _ P m (or_introl eq_refl)) as (d' & M & R). rewrite R. destruct (String.eqb_spec d' d) as [->|N].
  - split.
    + intros E. apply Some_inj in E. exists [], m, table. repeat split; auto.
    + intros (b & x & a & E & EP & MX & NB). destruct b as [|y b]; [injection E as <- _; now subst p|]. injection E as <- _. exfalso. exact (NB m (or_introl eq_refl) M).
  - assert (NM : ~ mounts_device sys m d) by (intros X; apply resolve_mounts in X; congruence). rewrite IH. split.
    + intros (b & x & a & -> & EP & MX & NB). exists (m :: b), x, a. repeat split; auto. intros y [<-|Hy]; auto.
    + intros (b & x & a & E & EP & MX & NB). destruct b as [|y b].
      * injection E as <- _. contradiction.
      * injection E as <- ->. exists b, x, a. repeat split; auto. intros z Hz. apply NB. now right.
Qed.

(** a slot has the path of the first mount of its device; nothing is left of earlier runs *)
Lemma c79_detects_ok : forall sys slots table e ok e' s,
  unique_names slots -> unique_devices slots -> plain_table sys table -> In s slots ->
  update_external_mounts sys slots table e = (ok, e') ->
  ok = true /\
  (forall p, e' (sl_name s) = Some p <->
     exists before m after, table = before ++ m :: after /\ me_path m = p /\ mounts_device sys m (sl_device s) /\
       forall x, In x before -> ~ mounts_device sys x (sl_device s)).
Proof.
  intros sys slots table e ok e' s UN UD P Hs H. unfold update_external_mounts in H.
  assert (O : ok = true).
  { change ok with (fst (ok, e')). rewrite <- H. apply scan_ok. intros m Hm. destruct (plain_resolves _ _ P m Hm) as (d & _ & R). congruence. }
  split; [exact O|]. subst ok. intros p. rewrite (scan_spec sys slots UN UD _ _ _ H s Hs), (cleared slots e s Hs). now apply first_mount_spec.
Qed.

(** it fails exactly if the backing file of some mounted loop device is unknown *)
Lemma c79_fails_ok : forall sys slots table e,
  (forall m, In m table -> ordinary (me_device m) \/ exists n, loop_device n (me_device m)) ->
  (fst (update_external_mounts sys slots table e) = false <->
   exists m n, In m table /\ loop_device n (me_device m) /\ sys ("loop" ++ n)%string = None).
Proof.
  intros sys slots table e P. unfold update_external_mounts.
  assert (LN : forall n d, loop_device n d -> loop_name d = Some ("loop" ++ n)%string).
  { intros n d [N [->|(k & K & ->)]].
    - replace ("/dev/loop" ++ n)%string with ("/dev/loop" ++ n ++ "")%string by now rewrite app_nil_r_s. now apply loop_name_at.
    - now apply loop_name_at. }
  split.
  - intros H. assert (X : ~ forall m, In m table -> resolve_loop sys (me_device m) <> None) by (intros X; apply (scan_ok sys slots table (clear_mounts slots e)) in X; congruence).
    clear H. induction table as [|m table IH]; [exfalso; apply X; intros m []|].
    destruct (resolve_loop sys (me_device m)) as [d|] eqn:E.
    + destruct IH as (m' & n & A & B & C); [intros x Hx; apply P; now right|intros Y; apply X; intros x [<-|Hx]; [congruence|auto]|]. exists m', n. split; [now right|auto].
    + destruct (P m (or_introl eq_refl)) as [O|(n & L)].
      * unfold resolve_loop in E. rewrite loop_name_ordinary in E by exact O. discriminate.
      * exists m, n. split; [now left|]. split; [exact L|]. unfold resolve_loop in E. rewrite (LN _ _ L) in E. destruct (sys ("loop" ++ n)%string); [discriminate|reflexivity].
  - intros (m & n & Hm & L & S). destruct (fst (scan_mounts sys slots table (clear_mounts slots e))) eqn:F; [|reflexivity].
    exfalso. apply (proj1 (scan_ok _ _ _ _)) with (m := m) in F; [|exact Hm]. apply F. unfold resolve_loop. rewrite (LN _ _ L), S. reflexivity.
Qed.

(** installations write no device that is mounted (at the time of the check), unless the slot
    allows it and an install hook does it *)
Lemma c79_not_written_ok : forall B (bk : backend B) cf inp (w : world B) r es realdev bootslot booted d c sys table e e',
  unique_names (cf_slots cf) -> wf_parents (cf_slots cf) -> unique_devices (cf_slots cf) -> plain_table sys table ->
  determine_slot_states realdev (Some bootslot) (cf_slots cf) = Ok (in_states inp) ->
  In booted (cf_slots cf) -> in_states inp (sl_name booted) = ST_BOOTED -> sl_parent booted = None ->
  update_external_mounts sys (cf_slots cf) table e = (true, e') ->
  (forall n, e' n <> None -> ck_mounted (in_checks inp) n = true) ->
  install bk cf inp w = (r, es) -> In (EWrite d c) es ->
  (exists m, In m table /\ mounts_device sys m d) ->
  exists s i, In s (cf_slots cf) /\ sl_device s = d /\ ck_allow_mounted (in_checks inp) (sl_name s) = true /\
    In i (in_images inp) /\ im_class i = sl_class s /\ im_install i = true.
Proof.
  intros B bk cf inp w r es realdev bs booted d c sys table e e' UN WP UD P HD HB HS HP HU HCK HI HIN (m & Hm & MD).
  destruct (c01_writes_ok _ _ _ _ _ _ _ _ _ _ _ _ UN WP HD HB HS HP HI HIN) as (s & Hs & Ds & _ & _ & _ & _ & _ & K).
  destruct (c79_detects_ok sys (cf_slots cf) table e true e' s UN UD P Hs HU) as [_ DT].
  assert (M : e' (sl_name s) <> None).
  { rewrite <- Ds in MD. assert (FM : exists p, first_mount sys (sl_device s) table = Some p).
    { clear - Hm MD. induction table as [|x table IH]; [destruct Hm|]. cbn. destruct Hm as [->|Hm].
      - rewrite (resolve_mounts _ _ _ MD), String.eqb_refl. eauto.
      - destruct (match resolve_loop sys (me_device x) with Some y => String.eqb y (sl_device s) | None => false end); eauto. }
    destruct FM as (p & FM). apply (first_mount_spec sys table (sl_device s) p P) in FM. apply DT in FM. congruence. }
  destruct (K (HCK _ M)) as (A & i & I1 & I2 & I3). exists s, i. auto 10.
Qed.

(** ** where it does not help *)
Definition mp_slot (n d : string) : slot := mkSlot n "rootfs" d "ext4" None None false false.
(** the mount table has the kernel's name of a device, the configuration another one *)
Lemma c79_alias_refuted : exists (real : string -> string) sys slots table e' s m,
  unique_names slots /\ unique_devices slots /\ plain_table sys table /\ In s slots /\ In m table /\
  real (me_device m) = real (sl_device s) /\
  update_external_mounts sys slots table (fun _ => None) = (true, e') /\ e' (sl_name s) = None.
Proof.
  exists (fun d => if String.eqb d "/dev/disk/by-partlabel/rootfs-1" then "/dev/mmcblk0p3" else d), (fun _ => None),
    [mp_slot "rootfs.0" "/dev/disk/by-partlabel/rootfs-0"; mp_slot "rootfs.1" "/dev/disk/by-partlabel/rootfs-1"], [mkMentry "/dev/mmcblk0p3" "/mnt"].
  eexists. exists (mp_slot "rootfs.1" "/dev/disk/by-partlabel/rootfs-1"), (mkMentry "/dev/mmcblk0p3" "/mnt").
  split; [repeat constructor; cbn; intuition discriminate|]. split; [repeat constructor; cbn; intuition discriminate|].
  split.
  { intros m [<-|[]]. left. apply loop_name_none. reflexivity. }
  split; [cbn; auto|]. split; [now left|]. split; [reflexivity|]. split; reflexivity.
Qed.
(** two slots on one device: only one of them counts as mounted *)
Lemma c79_shared_refuted : exists sys slots table e' s m,
  unique_names slots /\ plain_table sys table /\ In s slots /\ In m table /\ mounts_device sys m (sl_device s) /\
  update_external_mounts sys slots table (fun _ => None) = (true, e') /\ e' (sl_name s) = None.
Proof.
  exists (fun _ => None), [mp_slot "rootfs.0" "/dev/sda1"; mp_slot "rescue.0" "/dev/sda1"], [mkMentry "/dev/sda1" "/mnt"].
  eexists. exists (mp_slot "rescue.0" "/dev/sda1"), (mkMentry "/dev/sda1" "/mnt").
  assert (O : ordinary "/dev/sda1").
  { apply loop_name_none. reflexivity. }
  split; [repeat constructor; cbn; intuition discriminate|]. split; [intros m [<-|[]]; now left|].
  split; [cbn; auto|]. split; [now left|]. split; [now left|]. split; reflexivity.
Qed.
(** a network mount whose name contains that of a loop device stops every installation *)
Lemma c79_unrelated_refuted : exists sys slots table,
  unique_names slots /\ unique_devices slots /\ (forall s m, In s slots -> In m table -> me_device m <> sl_device s) /\
  (forall m n, In m table -> ~ loop_device n (me_device m)) /\
  fst (update_external_mounts sys slots table (fun _ => None)) = false.
Proof.
  exists (fun _ => None), [mp_slot "rootfs.0" "/dev/sda1"; mp_slot "rootfs.1" "/dev/sda2"], [mkMentry "nas:/dev/loop7" "/mnt"].
  split; [repeat constructor; cbn; intuition discriminate|]. split; [repeat constructor; cbn; intuition discriminate|].
  split; [intros s m [<-|[<-|[]]] [<-|[]]; discriminate|]. split; [|reflexivity].
  intros m n [<-|[]] [_ [E|(k & _ & E)]]; discriminate.
Qed.
