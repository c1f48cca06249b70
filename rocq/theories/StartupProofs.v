From Coq Require Import Permutation.
From Verif Require Import Base BaseLemmas Slot KeyFile Install InstallSpec InstallProofs StatusFile StatusFileSpec StatusFileProofs Startup StartupSpec.
Open Scope list_scope.

Lemma opt_is_true : forall o s, opt_is o s = true <-> o = Some s.
Proof. intros [x|] s; cbn; [rewrite String.eqb_eq|]; split; intros H; try discriminate; congruence. Qed.
Lemma opt_is_false : forall o s, opt_is o s = false <-> o <> Some s.
Proof. intros o s. rewrite <- opt_is_true. destruct (opt_is o s); split; intros H; congruence. Qed.

Lemma determine_known : forall slots b, (exists st, determine_slot_states (bo_realdev b) (bo_slot b) slots = Ok st) <-> known_slot slots b.
Proof.
  intros slots b. unfold determine_slot_states, known_slot. destruct (bo_slot b) as [bs|].
  - assert (M : forall s, matches_bootslot (bo_realdev b) bs s = true <-> (sl_bootname s = Some bs \/ sl_name s = bs \/ bo_realdev b (sl_device s) = bs)).
    { intros s. unfold matches_bootslot. rewrite !orb_true_iff, !String.eqb_eq. destruct (sl_bootname s) as [n|]; [rewrite String.eqb_eq|]; split; intros H; repeat (destruct H as [H|H]); try discriminate H; auto; subst; auto.
      injection H as ->. auto. }
    destruct (find (matches_bootslot (bo_realdev b) bs) (rev slots)) as [s|] eqn:E.
    + apply find_some in E as [E1 E2]. apply in_rev in E1. apply M in E2. split; [|eauto]. intros _. exists bs. split; [reflexivity|]. right. eauto.
    + destruct (String.eqb_spec bs "_external_") as [->|N].
      * split; [|eauto]. intros _. exists "_external_"%string. split; [reflexivity|]. now left.
      * split; [intros [st H]; discriminate H|]. intros (bs' & H & [->|(s & Hs & Hm)]).
        -- injection H as ->. contradiction.
        -- injection H as <-. apply M in Hm. rewrite (find_none _ _ E s) in Hm by now apply -> in_rev. discriminate.
  - split; [intros [st H]; discriminate H|intros (bs & H & _); discriminate H].
Qed.

Lemma booted_found : forall T (i : iso T) slots b st (m : statuses T) id, unique_names slots ->
  determine_slot_states (bo_realdev b) (bo_slot b) slots = Ok st ->
  let ev := if opt_is (bo_slot b) "_external_" then [LExternal id]
            else match get_booted slots st with Some s => [booted_event m s id] | None => [] end in
  exists e, ev = [e] /\ says_boot slots b id e.
Proof.
  intros T i slots b st m id U D ev. subst ev. destruct (opt_is (bo_slot b) "_external_") eqn:E.
  - apply opt_is_true in E. eexists. split; [reflexivity|]. left. now split.
  - apply opt_is_false in E. destruct (bo_slot b) as [bs|] eqn:Eb; [|discriminate D].
    destruct (states_ok _ _ _ _ U D) as [(bt & H1 & H2 & H3 & H4 & _)|(-> & _)]; [|now contradiction E].
    unfold get_booted. destruct (find (fun s => state_eqb (st (sl_name s)) ST_BOOTED) slots) as [s|] eqn:F.
    + apply find_some in F as [F1 F2]. assert (s = bt) as -> by (apply H4; [exact F1|]; destruct (st (sl_name s)); [discriminate F2|discriminate F2|reflexivity]).
      eexists. split; [reflexivity|]. right. split; [rewrite Eb; exact E|]. unfold booted_event. exists bs, bt. eexists. split; [exact Eb|]. split; [exact H1|]. split; [exact H3|reflexivity].
    + pose proof (find_none _ _ F bt H1) as X. cbn in X. rewrite H2 in X. discriminate X.
Qed.

Lemma system_load_kf : forall f, system_load f = kf_get (sfile_kf f) "system" "boot-id".
Proof. intros [| |kf]; reflexivity. Qed.
Lemma slots_keep_id : forall T (i : iso T) slots f m, system_load (FGood (save_globally i f slots m)) = system_load f.
Proof.
  intros T i slots f m. rewrite !system_load_kf. cbn [sfile_kf]. unfold save_globally. change (fun kf s => _) with (save_step i m).
  rewrite save_other; [now apply init_shared_get|]. intros s _ E. discriminate E.
Qed.
Lemma failed_keep_id : forall f, system_load (failed_save f) = system_load f.
Proof. intros [| |kf]; reflexivity. Qed.

Lemma starts_after : forall T (i : iso T) slots b st id l f, determine_slot_states (bo_realdev b) (bo_slot b) slots = Ok st -> bo_id b = Some id ->
  system_load f = Some id ->
  let (log, f') := run_boot i slots b f l in log = repeat LRestarted (List.length (good_starts l)) /\ system_load f' = Some id.
Proof.
  intros T i slots b st id l. induction l as [|x l IH]; intros f D B H; [now split|]. destruct x as [a|m|]; cbn [run_boot].
  - unfold service_start. rewrite D, B. cbn [good_starts flat_map]. destruct (sa_artifacts a); cbn [negb].
    + rewrite (proj2 (opt_is_true _ _) H). specialize (IH f D B H). destruct (run_boot i slots b f l) as [log f']. destruct IH as [-> IH]. now split.
    + specialize (IH f D B H). destruct (run_boot i slots b f l) as [log f']. exact IH.
  - specialize (IH (FGood (save_globally i f slots m)) D B). rewrite slots_keep_id in IH. exact (IH H).
  - specialize (IH (failed_save f) D B). rewrite failed_keep_id in IH. exact (IH H).
Qed.

Lemma boot_ok : forall T (i : iso T) slots b st id l f, unique_names slots -> determine_slot_states (bo_realdev b) (bo_slot b) slots = Ok st -> bo_id b = Some id ->
  system_load f <> Some id ->
  let (log, f') := run_boot i slots b f l in
  (exists evs m, log = evs ++ repeat LRestarted m /\ Forall (says_boot slots b id) evs /\ announced (good_starts l) (List.length evs) m) /\
  (system_load f' = Some id \/ system_load f' = system_load f).
Proof.
  intros T i slots b st id l. induction l as [|x l IH]; intros f U D B H.
  - cbn [run_boot]. split; [|now right]. exists [], 0. repeat split; [constructor|constructor].
  - destruct x as [a|m|]; cbn [run_boot].
    + unfold service_start. rewrite D, B. cbn [good_starts flat_map]. destruct (sa_artifacts a); cbn [negb].
      2: { specialize (IH f U D B H). destruct (run_boot i slots b f l) as [log f']. exact IH. }
      rewrite (proj2 (opt_is_false _ _) H).
      destruct (booted_found T i slots b st (load_globally i f slots (fun _ => None)) id U D) as (e & E & SB). rewrite E.
      destruct (sa_save a) eqn:ES.
      * pose proof (starts_after T i slots b st id l (FGood (system_save f id)) D B (proj1 (c07_system_ok f id))) as A.
        destruct (run_boot i slots b (FGood (system_save f id)) l) as [log f']. destruct A as [-> A]. split; [|now left].
        exists [e], (List.length (good_starts l)). split; [reflexivity|]. split; [now constructor|]. cbn [List.length app]. fold (good_starts l). apply an_saved.
      * specialize (IH (failed_save f) U D B). rewrite failed_keep_id in IH. specialize (IH H). destruct (run_boot i slots b (failed_save f) l) as [log f'].
        destruct IH as [(evs & m & -> & F & A) S]. split; [|exact S]. exists (e :: evs), m. split; [reflexivity|]. split; [now constructor|]. cbn [app List.length]. apply an_again; [discriminate|exact A].
      * specialize (IH f U D B H). destruct (run_boot i slots b f l) as [log f'].
        destruct IH as [(evs & m & -> & F & A) S]. split; [|exact S]. exists (e :: evs), m. split; [reflexivity|]. split; [now constructor|]. cbn [app List.length]. apply an_again; [discriminate|exact A].
    + specialize (IH (FGood (save_globally i f slots m)) U D B). rewrite slots_keep_id in IH. exact (IH H).
    + specialize (IH (failed_save f) U D B). rewrite failed_keep_id in IH. exact (IH H).
Qed.

Lemma unknown_boot : forall T (i : iso T) slots b l f, ~ known_slot slots b ->
  let (log, f') := run_boot i slots b f l in log = [] /\ system_load f' = system_load f.
Proof.
  intros T i slots b l. induction l as [|x l IH]; intros f H; [now split|]. destruct x as [a|m|]; cbn [run_boot].
  - unfold service_start. destruct (determine_slot_states (bo_realdev b) (bo_slot b) slots) as [st| |] eqn:D.
    + exfalso. apply H. apply determine_known. eauto.
    + specialize (IH f H). destruct (run_boot i slots b f l) as [log f']. exact IH.
    + specialize (IH f H). destruct (run_boot i slots b f l) as [log f']. exact IH.
  - specialize (IH (FGood (save_globally i f slots m)) H). rewrite slots_keep_id in IH. exact IH.
  - specialize (IH (failed_save f) H). rewrite failed_keep_id in IH. exact IH.
Qed.

Lemma known_dec : forall slots b, known_slot slots b \/ ~ known_slot slots b.
Proof.
  intros slots b. destruct (determine_slot_states (bo_realdev b) (bo_slot b) slots) as [st| |] eqn:D.
  - left. apply determine_known. eauto.
  - right. intros H. apply determine_known in H as [st H]. congruence.
  - right. intros H. apply determine_known in H as [st H]. congruence.
Qed.

Lemma c72_once_ok : forall T (i : iso T) slots (h : list (booting * list (sstep T))) ids f, unique_names slots ->
  map (fun x => bo_id (fst x)) h = map Some ids -> NoDup ids -> (forall id, system_load f = Some id -> ~ In id ids) ->
  Forall2 (fun x log => exists id, bo_id (fst x) = Some id /\ boot_once slots (fst x) id (snd x) log) h (run_boots i slots f h).
Proof.
  intros T i slots h. induction h as [|[b l] h IH]; intros ids f U M N F; [constructor|].
  destruct ids as [|id ids]; [discriminate M|]. cbn [map fst] in M. injection M as Mb M. inversion N as [|x y N1 N2]; subst x y.
  cbn [run_boots].
  assert (Hf : system_load f <> Some id) by (intros E; apply (F id E); now left).
  destruct (known_dec slots b) as [K|K].
  - destruct (proj2 (determine_known slots b) K) as [st D].
    pose proof (boot_ok T i slots b st id l f U D Mb Hf) as A. destruct (run_boot i slots b f l) as [log f']. destruct A as [A S].
    constructor; [exists id; split; [exact Mb|right; split; [exact K|exact A]]|].
    apply (IH ids f' U M N2). intros id' E. destruct S as [S|S].
    + rewrite S in E. injection E as <-. exact N1.
    + rewrite S in E. intros Hin. apply (F id' E). now right.
  - pose proof (unknown_boot T i slots b l f K) as A. destruct (run_boot i slots b f l) as [log f']. destruct A as [A S].
    constructor; [exists id; split; [exact Mb|left; now split]|].
    apply (IH ids f' U M N2). intros id' E. rewrite S in E. intros Hin. apply (F id' E). now right.
Qed.

Lemma announced_ok : forall l n m, announced l n m -> (l <> [] -> 0 < n) /\ ((forall x, In x l -> x = SaveOk) -> n <= 1) /\ n + m = List.length l.
Proof.
  intros l n m A. induction A as [|l|x l n m H A (I1 & I2 & I3)]; cbn [List.length].
  - repeat split; intros; try lia. now contradiction H.
  - repeat split; intros; lia.
  - repeat split; intros; try lia. exfalso. apply H. apply H0. now left.
Qed.

Lemma c72_counts_ok : forall T slots b id (l : list (sstep T)) log, boot_once slots b id l log -> known_slot slots b ->
  exists n m, n + m = List.length (good_starts l) /\ (good_starts l <> [] -> 0 < n) /\ ((forall x, In x (good_starts l) -> x = SaveOk) -> n <= 1) /\
    (exists evs, log = evs ++ repeat LRestarted m /\ List.length evs = n /\ Forall (says_boot slots b id) evs).
Proof.
  intros T slots b id l log [[K _]|[_ (evs & m & E & F & A)]] K'; [contradiction|].
  destruct (announced_ok _ _ _ A) as (A1 & A2 & A3). exists (List.length evs), m. split; [exact A3|]. split; [exact A1|]. split; [exact A2|]. exists evs. auto.
Qed.

(** the hash in the event is the one recorded by the installation *)
Lemma c72_hash_ok : forall T (i : iso T) seconds slots f0 m b a name bootname id h evs f' run, iso_law i seconds -> unique_names slots ->
  service_start i false slots b a (FGood (save_globally i f0 slots m)) = (evs, f', run) -> In (LBooted name bootname id h) evs ->
  forall r, m name = Some r -> rstat_ok r -> h = match rs_hash r with Some x => x | None => "unknown"%string end.
Proof.
  intros T i seconds slots f0 m b a name bootname id h evs f' run L U S Hin r Hm Hr. unfold service_start in S.
  destruct (determine_slot_states (bo_realdev b) (bo_slot b) slots) as [st| |]; try (injection S as <- _ _; destruct Hin).
  destruct (sa_artifacts a); cbn [negb] in S; [|injection S as <- _ _; destruct Hin].
  destruct (bo_id b) as [i0|]; [|injection S as <- _ _; destruct Hin].
  destruct (opt_is _ i0); [injection S as <- _ _; destruct Hin as [Hin|[]]; discriminate Hin|].
  assert (E : In (LBooted name bootname id h) (if opt_is (bo_slot b) "_external_" then [LExternal i0]
     else match get_booted slots st with Some s => [booted_event (load_globally i (FGood (save_globally i f0 slots m)) slots (fun _ => None)) s i0] | None => [] end)).
  { destruct (sa_save a); injection S as <- _ _; exact Hin. }
  destruct (opt_is (bo_slot b) "_external_"); [destruct E as [E|[]]; discriminate E|].
  destruct (get_booted slots st) as [s|] eqn:G; [|destruct E]. destruct E as [E|[]]. unfold booted_event in E.
  apply find_some in G as [G _].
  assert (N : name = sl_name s) by congruence. subst name.
  destruct (c07_global_ok T i seconds slots f0 m L U) as [A _]. rewrite (A s r G Hm Hr) in E. cbn [persisted rs_hash] in E. congruence.
Qed.

Lemma c72_no_boot_id_ok : forall T (i : iso T) slots b a f, bo_id b = None ->
  fst (fst (service_start i false slots b a f)) = [] /\ snd (fst (service_start i false slots b a f)) = f.
Proof.
  intros T i slots b a f H. unfold service_start. rewrite H. destruct (determine_slot_states _ _ _); [|now split|now split]. destruct (sa_artifacts a); now split.
Qed.

(** *** links *)
Definition sl_path (s : slot) : string := ("slots/active/" ++ sl_class s)%string.
Definition re_link (r : repo) : string := ("artifacts/" ++ re_name r)%string.

Lemma fold_links : forall A (want : A -> option (string * string)) W (l : list A) (ls : links),
  let go := fold_left (fun ls x => match want x with Some (t, p) => update_link W t p ls | None => ls end) l ls in
  forall path, (go path = ls path /\ forall x t, In x l -> want x = Some (t, path) -> W path = false) \/
               (exists x t, In x l /\ want x = Some (t, path) /\ W path = true /\ go path = Some t).
Proof.
  intros A want W l. induction l as [|x l IH]; intros ls go path; subst go; cbn [fold_left].
  - left. split; [reflexivity|]. intros x t [].
  - specialize (IH (match want x with Some (t, p) => update_link W t p ls | None => ls end) path). cbv zeta in IH.
    destruct IH as [[E N]|(y & t & Hy & Hw & HW & E)].
    + destruct (want x) as [[t p]|] eqn:Ew.
      * destruct (W p) eqn:EW; (assert (UL : update_link W t p ls = if W p then upd ls p (Some t) else ls) by reflexivity); rewrite EW in UL; rewrite UL in *.
        -- assert (V : upd ls p (Some t) path = if String.eqb p path then Some t else ls path) by reflexivity. rewrite V in E.
           destruct (String.eqb_spec p path) as [->|Hp].
           ++ right. exists x, t. repeat split; auto. now left.
           ++ left. split; [exact E|]. intros y t' [<-|Hy] Hw; [congruence|now apply (N y t')].
        -- left. split; [exact E|]. intros y t' [<-|Hy] Hw; [congruence|now apply (N y t')].
      * left. split; [exact E|]. intros y t' [<-|Hy] Hw; [congruence|now apply (N y t')].
    + right. exists y, t. repeat split; auto. now right.
Qed.

Lemma last_booted : forall slots st o, fold_left (fun o s => if state_eqb (st (sl_name s)) ST_BOOTED then Some s else o) slots o =
  match find (fun s => state_eqb (st (sl_name s)) ST_BOOTED) (rev slots) with Some s => Some s | None => o end.
Proof.
  intros slots st. induction slots as [|s slots IH] using rev_ind; intros o; [reflexivity|].
  rewrite fold_left_app, rev_app_distr. cbn [fold_left rev app find]. rewrite IH. destruct (state_eqb (st (sl_name s)) ST_BOOTED); reflexivity.
Qed.

Lemma c72_links_ok : forall W slots st repos (before : links),
  let after := create_run_links true true W slots st repos before in
  (forall booted, (forall s, In s slots -> st (sl_name s) = ST_BOOTED -> s = booted) ->
   forall path,
   (* what is there now is one of these, and what can be done is done *)
   (exists s, In s slots /\ st (sl_name s) <> ST_INACTIVE /\ path = ("slots/active/" ++ sl_class s)%string /\ W path = true /\ after path = Some (sl_device s)) \/
   (exists r, In r repos /\ path = ("artifacts/" ++ re_name r)%string /\ W path = true /\
      ((re_parent r = false /\ after path = Some (re_path r)) \/
       (re_parent r = true /\ In booted slots /\ st (sl_name booted) = ST_BOOTED /\ after path = Some (re_path r ++ "/" ++ sl_name booted)%string))) \/
   (after path = before path /\
    (forall s, In s slots -> st (sl_name s) <> ST_INACTIVE -> path = ("slots/active/" ++ sl_class s)%string -> W path = false) /\
    (forall r, In r repos -> path = ("artifacts/" ++ re_name r)%string -> re_parent r = false \/ (In booted slots /\ st (sl_name booted) = ST_BOOTED) -> W path = false))).
Proof.
  intros W slots st repos before after booted HB path. subst after. unfold create_run_links. cbn [negb].
  set (w1 := fun s => if active st s then Some (sl_device s, ("slots/active/" ++ sl_class s)%string) else None).
  set (l1 := fold_left (fun l s => if active st s then update_link W (sl_device s) ("slots/active/" ++ sl_class s) l else l) slots before).
  assert (E1 : l1 = fold_left (fun ls x => match w1 x with Some (t, p) => update_link W t p ls | None => ls end) slots before).
  { subst l1 w1. clear. revert before. induction slots as [|s slots IH]; intros b; [reflexivity|]. cbn [fold_left]. rewrite IH. destruct (active st s); reflexivity. }
  set (bt := fold_left (fun o s => if state_eqb (st (sl_name s)) ST_BOOTED then Some s else o) slots None).
  assert (BT : (bt = Some booted /\ In booted slots /\ st (sl_name booted) = ST_BOOTED) \/ (bt = None /\ forall s, In s slots -> st (sl_name s) <> ST_BOOTED)).
  { subst bt. rewrite last_booted. destruct (find _ (rev slots)) as [s|] eqn:F.
    - apply find_some in F as [F1 F2]. apply in_rev in F1. assert (Hs : st (sl_name s) = ST_BOOTED) by (destruct (st (sl_name s)); [discriminate F2|discriminate F2|reflexivity]).
      pose proof (HB s F1 Hs). subst s. left. auto.
    - right. split; [reflexivity|]. intros s Hs E. pose proof (find_none _ _ F s) as X. cbn in X. rewrite E in X. discriminate X. now apply -> in_rev. }
  clearbody bt.
  set (w2 := fun r => if re_parent r then match bt with Some s => Some ((re_path r ++ "/" ++ sl_name s)%string, ("artifacts/" ++ re_name r)%string) | None => None end
                      else Some (re_path r, ("artifacts/" ++ re_name r)%string)).
  match goal with |- context [fold_left ?f repos l1] => set (l2 := fold_left f repos l1) end.
  assert (E2 : l2 = fold_left (fun ls x => match w2 x with Some (t, p) => update_link W t p ls | None => ls end) repos l1).
  { subst l2 w2. clear. generalize l1. induction repos as [|r repos IH]; intros b; [reflexivity|]. cbn [fold_left]. rewrite IH. destruct (re_parent r); [destruct bt|]; reflexivity. }
  pose proof (fold_links _ w1 W slots before path) as F1. cbv zeta in F1. rewrite <- E1 in F1.
  pose proof (fold_links _ w2 W repos l1 path) as F2. cbv zeta in F2. rewrite <- E2 in F2.
  clearbody l1 l2.
  destruct F2 as [[F2 N2]|(r & t & Hr & Hw & HW & F2)].
  - destruct F1 as [[F1 N1]|(s & t & Hs & Hw & HW & F1)].
    + right. right. split; [congruence|]. split.
      * intros s Hs Ha ->. apply (N1 s (sl_device s) Hs). subst w1. cbn beta. replace (active st s) with true; [reflexivity|].
        unfold active. destruct (st (sl_name s)); [reflexivity|contradiction|reflexivity].
      * intros r Hr -> Hp. subst w2. cbn beta in N2. destruct (re_parent r) eqn:Ep.
        -- destruct Hp as [Hp|[Hb Hst]]; [discriminate Hp|]. destruct BT as [(-> & _ & _)|[_ BN]]; [|exfalso; now apply (BN booted)].
           apply (N2 r (re_path r ++ "/" ++ sl_name booted)%string Hr). now rewrite Ep.
        -- apply (N2 r (re_path r) Hr). now rewrite Ep.
    + left. exists s. subst w1. cbn beta in Hw. destruct (active st s) eqn:Ea; [|discriminate Hw]. apply Some_inj in Hw. apply pair_equal_spec in Hw as [<- <-].
      split; [exact Hs|]. split; [intros E; unfold active in Ea; rewrite E in Ea; discriminate Ea|]. split; [reflexivity|]. split; [exact HW|congruence].
  - right. left. exists r. subst w2. cbn beta in Hw. destruct (re_parent r) eqn:Ep.
    + destruct bt as [s|]; [|discriminate Hw]. apply Some_inj in Hw. apply pair_equal_spec in Hw as [<- <-].
      destruct BT as [(E & B1 & B2)|[E _]]; [|discriminate E]. apply Some_inj in E. subst s.
      split; [exact Hr|]. split; [reflexivity|]. split; [exact HW|]. right. auto.
    + apply Some_inj in Hw. apply pair_equal_spec in Hw as [<- <-]. split; [exact Hr|]. split; [reflexivity|]. split; [exact HW|]. left. auto.
Qed.

Lemma c72_active_link_ok : forall realdev bootslot slots st repos W (before : links) s, unique_names slots ->
  determine_slot_states realdev (Some bootslot) slots = Ok st ->
  In s slots -> st (sl_name s) <> ST_INACTIVE -> (forall s', In s' slots -> st (sl_name s') <> ST_INACTIVE -> sl_class s' = sl_class s -> s' = s) ->
  W ("slots/active/" ++ sl_class s)%string = true ->
  create_run_links true true W slots st repos before ("slots/active/" ++ sl_class s)%string = Some (sl_device s).
Proof.
  intros realdev bootslot slots st repos W before s U D Hs Ha Hu HW.
  assert (B : exists booted, forall s', In s' slots -> st (sl_name s') = ST_BOOTED -> s' = booted).
  { destruct (states_ok _ _ _ _ U D) as [(bt & _ & _ & _ & H4 & _)|(_ & H & _)]; [now exists bt|]. exists s. intros s' Hin E. rewrite (H s' Hin) in E. discriminate E. }
  destruct B as [booted HB].
  destruct (c72_links_ok W slots st repos before booted HB ("slots/active/" ++ sl_class s)%string) as [(s' & H1 & H2 & H3 & _ & H5)|[(r & _ & H & _)|(_ & H & _)]].
  - rewrite H5. f_equal. f_equal. apply Hu; [exact H1|exact H2|]. cbn [append] in H3. injection H3 as H3. now symmetry.
  - discriminate H.
  - rewrite (H s Hs Ha eq_refl) in HW. discriminate HW.
Qed.

(** two active slots of one class: which device the link leads to depends on the order of the hash table *)
Lemma c72_two_active_refuted : exists slots slots' st, Permutation slots slots' /\ unique_names slots /\ wf_parents slots /\
  determine_slot_states (fun d => d) (Some "A"%string) slots = Ok st /\
  create_run_links true true (fun _ => true) slots st [] (fun _ => None) "slots/active/app" <>
  create_run_links true true (fun _ => true) slots' st [] (fun _ => None) "slots/active/app".
Proof.
  set (a := mkSlot "rootfs.0" "rootfs" "/dev/a" "ext4" (Some "A"%string) None false false).
  set (b := mkSlot "app.0" "app" "/dev/b" "ext4" None (Some "rootfs.0"%string) false false).
  set (c := mkSlot "app.1" "app" "/dev/c" "ext4" None (Some "rootfs.0"%string) false false).
  exists [a; b; c], [a; c; b]. eexists.
  split; [constructor; constructor|]. split; [unfold unique_names; cbn; repeat constructor; cbn; intuition discriminate|].
  split; [|split; [vm_compute; reflexivity|vm_compute; discriminate]].
  intros s p [<-|[<-|[<-|[]]]] H; cbn in H; try discriminate H; injection H as <-; exists a; (split; [now left|split; reflexivity]).
Qed.

(** ** does the service run *)
Lemma c72_runs_ok : forall T (i : iso T) per_slot slots b a f,
  snd (service_start i per_slot slots b a f) = true <->
  known_slot slots b /\ sa_artifacts a = true /\
  (sa_save a = SaveCrash -> per_slot = true \/ bo_id b = None \/ system_load f = bo_id b).
Proof.
  intros T i per_slot slots b a f. rewrite <- determine_known. unfold service_start.
  destruct (determine_slot_states (bo_realdev b) (bo_slot b) slots) as [st| |] eqn:D; cbn [snd].
  2,3: split; [discriminate|intros ((st & X) & _); discriminate].
  destruct (sa_artifacts a); cbn [negb snd]; [|split; [discriminate|intros (_ & X & _); discriminate]].
  destruct per_slot; cbn [snd]; [split; [intros _; eauto 6|reflexivity]|].
  destruct (bo_id b) as [id|]; cbn [snd]; [|split; [intros _; eauto 6|reflexivity]].
  destruct (opt_is (system_load f) id) eqn:L; cbn [snd].
  - split; [intros _|reflexivity]. split; [eauto|]. split; [reflexivity|]. intros _. right. right.
    destruct (system_load f) as [x|]; [|discriminate L]. cbn [opt_is] in L. apply String.eqb_eq in L. now subst.
  - destruct (sa_save a); cbn [snd]; try (split; [intros _; split; [eauto|]; split; [reflexivity|discriminate]|reflexivity]).
    split; [discriminate|]. intros (_ & _ & X). destruct (X eq_refl) as [E|[E|E]]; try discriminate. rewrite E in L. cbn [opt_is] in L. rewrite String.eqb_refl in L. discriminate.
Qed.
