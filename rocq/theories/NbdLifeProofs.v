From Verif Require Import Base BaseLemmas NbdLife NbdLifeSpec.

(** ** calls *)
Lemma calls_app : forall a b l, calls l (a ++ b) = match calls l a with Some l' => calls l' b | None => None end.
Proof. induction a as [|e a IH]; intros b l; [reflexivity|]. cbn [app calls]. destruct (call l e); [apply IH|reflexivity]. Qed.
Lemma calls_talk : forall n fd l, existsb (Nat.eqb fd) l = true -> calls l (repeat (ETalk fd) n) = Some l.
Proof. induction n as [|n IH]; intros fd l H; [reflexivity|]. cbn [repeat calls call]. unfold used. rewrite H. apply IH, H. Qed.

(** ** numbers of descriptors *)
Lemma nb1 : forall n, Nat.eqb n (S n) = false. Proof. intros n. apply Nat.eqb_neq. lia. Qed.
Lemma nb2 : forall n, Nat.eqb (S n) n = false. Proof. intros n. apply Nat.eqb_neq. lia. Qed.
Lemma nb3 : forall n, Nat.eqb n (S (S n)) = false. Proof. intros n. apply Nat.eqb_neq. lia. Qed.
Lemma nb4 : forall n, Nat.eqb (S (S n)) n = false. Proof. intros n. apply Nat.eqb_neq. lia. Qed.
Ltac fds := repeat (progress (cbv beta delta [log set_proc set_disc set_dev used]; cbn -[Nat.eqb repeat app]; rewrite ?Nat.eqb_refl, ?nb1, ?nb2, ?nb3, ?nb4)).
Ltac fds_in H := repeat (progress (cbv beta delta [log set_proc set_disc set_dev used] in H; cbn -[Nat.eqb repeat app] in H; rewrite ?Nat.eqb_refl, ?nb1, ?nb2, ?nb3, ?nb4 in H)).

(** ** check_bundle *)
(** states between the start of the server and the device *)
Definition mid (n : nat) (p : proc) (lg : list ev) : st := mkSt (S (S n)) [S n] (Some (S n)) None p false None lg.
Definition started (n : nat) : list ev := [EPair n (S n); EClose n; ESpawn; ETalk (S n)].
Lemma reads_shape : forall rs fd s, exists k, let lg := (s_log s ++ repeat (ETalk fd) k) in
  let s' p := mkSt (s_next s) (s_open s) (s_peer s) (s_devfd s) p (s_disc s) (s_dev s) lg in
  (exists ok, do_reads rs fd s = Done ok (s' (s_proc s))) \/
  (do_reads rs fd s = Aborts (s' Exited) /\ exists m r, rs = repeat RdOk m ++ RdDies :: r).
Proof.
  induction rs as [|x rs IH]; intros fd s; cbn [do_reads].
  - exists 0. left. exists true. cbn [repeat]. rewrite app_nil_r. destruct s; reflexivity.
  - destruct x.
    + destruct (IH fd (log (ETalk fd) s)) as (k & H). exists (S k). cbn [log s_log s_next s_open s_peer s_devfd s_proc s_disc s_dev] in H. cbv zeta in H |- *.
      cbn [repeat]. change (ETalk fd :: repeat (ETalk fd) k) with ([ETalk fd] ++ repeat (ETalk fd) k). rewrite app_assoc.
      destruct H as [(ok & H)|(H & m & r & ->)]; [left; eauto|]. right. split; [exact H|]. exists (S m), r. reflexivity.
    + exists 1. left. exists false. reflexivity.
    + exists 1. right. split; [reflexivity|]. exists 0, rs. reflexivity.
Qed.
Lemma reads_not_dying : forall m r fd s, exists s', do_reads (repeat RdOk m ++ RdDies :: r) fd s = Aborts s'.
Proof. induction m as [|m IH]; intros r fd s; cbn [repeat app do_reads]; [eauto|apply IH]. Qed.

(** what check_bundle leads to, in terms of [n] and the calls so far *)
Definition checked (e : env) (n : nat) (lg : list ev) (o : out (bool * bun)) (s : st) : Prop :=
  (o = Done (false, bun0) s) \/
  (exists b, o = Done (false, bun0) (mkSt (S (S n)) [] (Some (S n)) None NoServer false None (lg ++ [EPair n (S n); EClose n; EClose (S n)])) /\ b = true) \/
  (exists k ok p, o = Done (ok, mkBun true (Some (S n)) None 0) (mid n p ((lg ++ started n) ++ repeat (ETalk (S n)) k)) /\
     (p = Running \/ (p = Exited /\ ok = false))) \/
  (exists k, o = Aborts (mid n Exited ((lg ++ started n) ++ repeat (ETalk (S n)) k)) /\ dies_early e).
Lemma check_shape : forall e s, s_open s = [] -> checked e (s_next s) (s_log s) (check e s) s.
Proof.
  intros e [n op pe df pr di dv lg] H. cbn [s_open] in H. subst op. unfold checked, check, start_server, andthen. cbn [s_next s_log].
  destruct (e_pair e) eqn:Ep; cbn [negb]; [|left; reflexivity]. right. unfold socketpair. cbn [s_next s_open s_log].
  destruct (e_prepare e) eqn:Er; cbn [negb].
  2:{ left. exists true. split; [|reflexivity]. fds. rewrite <- !app_assoc. reflexivity. }
  destruct (e_spawn e) eqn:Es; cbn [negb].
  2:{ left. exists true. split; [|reflexivity]. fds. rewrite <- !app_assoc. reflexivity. }
  right.
  assert (E : log (ETalk (S n)) (log ESpawn (set_proc Running (close n (mkSt (S (S n)) [n; S n] (Some (S n)) None NoServer false None (lg ++ [EPair n (S n)]))))) = mid n Running (lg ++ started n)).
  { unfold mid, started. fds. rewrite <- !app_assoc. reflexivity. }
  rewrite E. clear E. destruct (e_config e) eqn:Ec.
  - cbn [b_sock]. destruct (reads_shape (e_reads e) (S n) (mid n Running (lg ++ started n))) as (k & [(ok & R)|(R & m & r & R')]); rewrite R; cbn [mid s_next s_open s_peer s_devfd s_proc s_disc s_dev s_log].
    + left. exists k, (ok && e_check e)%bool, Running. split; [reflexivity|auto].
    + right. exists k. split; [reflexivity|]. unfold dies_early. repeat split; auto. right. split; [exact Ec|]. eauto.
  - left. exists 0, false, Exited. cbn [repeat]. rewrite app_nil_r. split; [reflexivity|auto].
  - right. exists 0. cbn [repeat]. rewrite app_nil_r. split; [reflexivity|]. unfold dies_early. auto.
Qed.

(** ** the rest *)
(** the server is told to stop, and waited for *)
Lemma free_mid : forall e n p lg, p = Running \/ p = Exited -> exists s',
  free e (mkBun true (Some (S n)) None 0) (mid n p lg) = Done tt s' /\ nothing_left s' /\ s_log s' = lg ++ [ESendDisc (S n); EClose (S n); EWait].
Proof.
  intros e n p lg H. unfold free, mid, nothing_left. destruct H as [-> | ->]; fds; eexists; (split; [reflexivity|]; fds; split; [auto|rewrite <- !app_assoc; reflexivity]).
Qed.

(** calls of a run that started in [s] *)
Definition fine (s s' : st) : Prop := exists es, s_log s' = s_log s ++ es /\ calls [] es = Some (s_open s').
Lemma fine_app : forall s s' lg es, s_log s = lg -> s_log s' = lg ++ es -> calls [] es = Some (s_open s') -> fine s s'.
Proof. intros s s' lg es <- H1 H2. exists es. auto. Qed.
Lemma calls_started : forall n k, calls [] (started n ++ repeat (ETalk (S n)) k) = Some [S n].
Proof.
  intros n k. rewrite calls_app. replace (calls [] (started n)) with (Some [S n]).
  - apply calls_talk. cbn. rewrite Nat.eqb_refl. reflexivity.
  - unfold started. fds. reflexivity.
Qed.

(** everything after a successful check *)
Definition after_check (e : env) (n : nat) (lg : list ev) : out bool :=
  match mount e (mkBun true (Some (S n)) None 0) (mid n Running lg) with
  | (false, bu, s) => andthen (free e bu s) (fun _ s => Done false s)
  | (true, bu, s) => andthen (umount e bu s) (fun r s => andthen (free e (snd r) s) (fun _ s => Done true s))
  end.
(** what mount_bundle leads to *)
Definition dv_st (n : nat) (op : list nat) (df : option nat) (nx : nat) (d : option nbddev) (lg : list ev) : st := mkSt nx op (Some (S n)) df Running false d lg.
Lemma mount_shape : forall e n lg, mount e (mkBun true (Some (S n)) None 0) (mid n Running lg) =
  if e_netlink e then
    match e_connect e with
    | ConnFails => (false, mkBun true (Some (S n)) (Some (None, false)) 0, dv_st n [S n] None (S (S n)) None (lg ++ [EConnect (S n)]))
    | ConnLost => (false, mkBun true (Some (S n)) (Some (None, false)) 0, dv_st n [S n] None (S (S n)) (Some (mkNbddev false false)) (lg ++ [EConnect (S n)]))
    | ConnOk =>
        if e_open e then
          if e_reconf e then
            if e_mount e then (true, mkBun true None (Some (Some (S n), true)) 0, dv_st n [S n] (Some (S (S n))) (S (S (S n))) (Some (mkNbddev true true)) (lg ++ [EConnect (S n); EOpen (S (S n)); EReconfigure; EClose (S (S n))]))
            else if e_stays e then (false, mkBun true None (Some (Some (S n), true)) 0, dv_st n [S n] (Some (S (S n))) (S (S (S n))) (Some (mkNbddev true true)) (lg ++ [EConnect (S n); EOpen (S (S n)); EReconfigure; EClose (S (S n))]))
            else (false, mkBun true None (Some (Some (S n), true)) 0, mkSt (S (S (S n))) [S n] (Some (S n)) (Some (S (S n))) Running true None (lg ++ [EConnect (S n); EOpen (S (S n)); EReconfigure; EClose (S (S n))]))
          else (false, mkBun true (Some (S n)) (Some (None, true)) 0, dv_st n [S n] (Some (S (S n))) (S (S (S n))) (Some (mkNbddev false false)) (lg ++ [EConnect (S n); EOpen (S (S n)); EReconfigure; EClose (S (S n))]))
        else (false, mkBun true (Some (S n)) (Some (None, true)) 0, dv_st n [S n] None (S (S n)) (Some (mkNbddev false false)) (lg ++ [EConnect (S n)]))
    end
  else (false, mkBun true (Some (S n)) (Some (None, false)) 0, mid n Running lg).
Proof.
  intros e n lg. unfold mount, setup_device, mid, dv_st.
  destruct (e_netlink e); [|fds; reflexivity]. destruct (e_connect e); [|fds; reflexivity..].
  destruct (e_open e); [|fds; reflexivity]. destruct (e_reconf e); [|fds; rewrite <- !app_assoc; reflexivity].
  destruct (e_mount e); [fds; rewrite <- !app_assoc; reflexivity|]. destruct (e_stays e); fds; rewrite <- !app_assoc; reflexivity.
Qed.
Lemma after_shape : forall e n lg,
  match after_check e n lg with
  | Done r s' => (exists es, s_log s' = lg ++ es /\ calls [S n] es = Some (s_open s')) /\ (netlink_works e -> nothing_left s') /\
      (s_proc s' = Reaped) /\ (s_open s' <> [] -> set_up e /\ e_nl e 0 = false /\ (e_mount e = true -> e_umount e = true -> e_nl e 1 = false)) /\
      (s_dev s' <> None -> (e_netlink e = true /\ e_connect e = ConnLost) \/ removal_fails e 0) /\
      (r = true <-> set_up e /\ e_mount e = true)
  | Hangs s' => (exists es, s_log s' = lg ++ es /\ calls [S n] es = Some (s_open s')) /\ set_up e /\ kept_in_use e /\
      removal_fails e 0 /\ (e_mount e = true -> e_umount e = true -> e_nl e 0 = false -> removal_fails e 1) /\ (e_mount e = true -> e_dies e = false)
  | Aborts _ => False
  end.
Proof.
  intros e n lg. unfold after_check. rewrite mount_shape. unfold set_up, kept_in_use, removal_fails, netlink_works, nothing_left.
  assert (K : (forall k : nat, e_nl e k = true /\ e_sent e k = true) -> e_nl e 0 = true /\ e_sent e 0 = true /\ e_nl e 1 = true /\ e_sent e 1 = true)
    by (intros Hk; destruct (Hk 0), (Hk 1); auto).
  destruct (e_netlink e) eqn:E1; [destruct (e_connect e) eqn:E2; [destruct (e_open e) eqn:E3; [destruct (e_reconf e) eqn:E4; [destruct (e_mount e) eqn:E5; [|destruct (e_stays e) eqn:E6]|]|]|..]|].
  1:{ unfold umount. destruct (e_umount e) eqn:E7; cbn [negb].
      - destruct (e_dies e) eqn:E8, (e_holds e) eqn:E9, (e_nl e 0) eqn:E10;
          [destruct (e_sent e 0) eqn:E11|destruct (e_nl e 1) eqn:E12; [destruct (e_sent e 1) eqn:E13|]|destruct (e_sent e 0) eqn:E11|destruct (e_nl e 1) eqn:E12; [destruct (e_sent e 1) eqn:E13|]
          |destruct (e_sent e 0) eqn:E11|destruct (e_nl e 1) eqn:E12; [destruct (e_sent e 1) eqn:E13|]|destruct (e_sent e 0) eqn:E11|destruct (e_nl e 1) eqn:E12; [destruct (e_sent e 1) eqn:E13|]].
        all: unfold free, remove_device, stop_server, dv_st; repeat (fds; rewrite ?E10, ?E11, ?E12, ?E13; cbn [negb]).
        all: repeat match goal with |- _ /\ _ => split end.
        all: try (eexists; split; [rewrite <- ?app_assoc; reflexivity|cbn [app]; fds; reflexivity]).
        all: try solve [intuition congruence].
      - destruct (e_dies e) eqn:E8, (e_nl e 0) eqn:E10; [destruct (e_sent e 0) eqn:E11| |destruct (e_sent e 0) eqn:E11|].
        all: unfold free, remove_device, stop_server, dv_st; repeat (fds; rewrite ?E10, ?E11; cbn [negb]).
        all: repeat match goal with |- _ /\ _ => split end.
        all: try (eexists; split; [rewrite <- ?app_assoc; reflexivity|cbn [app]; fds; reflexivity]).
        all: try solve [intuition congruence]. }
  all: destruct (e_nl e 0) eqn:E10; [destruct (e_sent e 0) eqn:E11|].
  all: unfold free, remove_device, stop_server, dv_st, mid; repeat (fds; rewrite ?E10, ?E11; cbn [negb]).
  all: repeat match goal with |- _ /\ _ => split end.
  all: try (eexists; split; [rewrite <- ?app_assoc; reflexivity|cbn [app]; fds; reflexivity]).
  all: try solve [intuition congruence].
Qed.

(** ** whole runs *)
Lemma log3 : forall (lg a b c : list ev), ((lg ++ a) ++ b) ++ c = lg ++ ((a ++ b) ++ c).
Proof. intros. rewrite <- !app_assoc. reflexivity. Qed.
Lemma run_cases : forall c e s, s_open s = [] ->
  (run c e s = Done false s) \/
  (exists s', run c e s = Done false s' /\ nothing_left s' /\ exists es, s_log s' = s_log s ++ es /\ calls [] es = Some []) \/
  (exists ok s', run c e s = Done ok s' /\ (c = Info \/ ok = false) /\ nothing_left s' /\ s_proc s' = Reaped /\ exists es, s_log s' = s_log s ++ es /\ calls [] es = Some []) \/
  (exists k, c = Install /\ run c e s = after_check e (s_next s) ((s_log s ++ started (s_next s)) ++ repeat (ETalk (S (s_next s))) k)) \/
  (exists s', run c e s = Aborts s' /\ dies_early e /\ exists es, s_log s' = s_log s ++ es /\ calls [] es = Some (s_open s')).
Proof.
  intros c e s H. assert (X : checked e (s_next s) (s_log s) (check e s) s) by (apply check_shape, H).
  destruct X as [X|[(b & X & _)|[(k & ok & p & X & Hp)|(k & X & D)]]].
  - left. destruct c; cbn [run]; unfold run_info, run_install; rewrite X; cbn [andthen negb]; reflexivity.
  - right. left. eexists. split; [destruct c; cbn [run]; unfold run_info, run_install; rewrite X; cbn [andthen negb]; reflexivity|].
    split; [unfold nothing_left; cbn; auto|]. eexists. split; [reflexivity|]. fds. reflexivity.
  - assert (Hp' : p = Running \/ p = Exited) by (destruct Hp as [-> | [-> _]]; auto).
    destruct (free_mid e (s_next s) p ((s_log s ++ started (s_next s)) ++ repeat (ETalk (S (s_next s))) k) Hp') as (s' & F & N & L).
    assert (Y : exists es, s_log s' = s_log s ++ es /\ calls [] es = Some []).
    { eexists. rewrite L, log3. split; [reflexivity|]. rewrite calls_app, calls_started. fds. reflexivity. }
    assert (R : s_proc s' = Reaped).
    { revert F. unfold free, mid. destruct Hp' as [-> | ->]; fds; intros F; injection F as <-; reflexivity. }
    right. right. destruct c; cbn [run]; unfold run_info, run_install; rewrite X; cbn [andthen].
    + left. rewrite F. cbn [andthen]. exists ok, s'. auto 6.
    + destruct ok; cbn [negb].
      * right. left. exists k. split; [reflexivity|]. destruct Hp as [-> | [_ Hp]]; [reflexivity|discriminate].
      * left. rewrite F. cbn [andthen]. exists false, s'. auto 6.
  - right. right. right. right. eexists. split; [destruct c; cbn [run]; unfold run_info, run_install; rewrite X; reflexivity|]. split; [exact D|].
    eexists. unfold mid. cbn [s_log s_open]. rewrite <- app_assoc. split; [reflexivity|apply calls_started].
Qed.

Lemma c81_nothing_left_ok : forall c e s r s', nothing_left s -> netlink_works e -> run c e s = Done r s' -> nothing_left s'.
Proof.
  intros c e s r s' N W H. destruct (run_cases c e s (proj1 N)) as [X|[(x & X & Y & _)|[(ok & x & X & _ & Y & _)|[(k & -> & X)|(x & X & _)]]]]; rewrite X in H.
  - injection H as _ <-. exact N.
  - injection H as _ <-. exact Y.
  - injection H as _ <-. exact Y.
  - pose proof (after_shape e (s_next s) ((s_log s ++ started (s_next s)) ++ repeat (ETalk (S (s_next s))) k)) as A. rewrite H in A. apply A, W.
  - discriminate.
Qed.
Lemma c81_history_ok : forall s s', streams netlink_works s s' -> nothing_left s -> nothing_left s'.
Proof. induction 1 as [|s c e r s1 s' G R _ IH]; intros N; [exact N|]. apply IH. exact (c81_nothing_left_ok _ _ _ _ _ N G R). Qed.
Lemma c81_left_ok : forall c e s r s', nothing_left s -> run c e s = Done r s' ->
  (s_proc s' = NoServer \/ s_proc s' = Reaped) /\
  (s_open s' <> [] -> c = Install /\ set_up e /\ e_nl e 0 = false /\ (e_mount e = true -> e_umount e = true -> e_nl e 1 = false)) /\
  (s_dev s' <> None -> c = Install /\ ((e_netlink e = true /\ e_connect e = ConnLost) \/ removal_fails e 0)).
Proof.
  intros c e s r s' N H.
  assert (G : forall x, nothing_left x -> (s_proc x = NoServer \/ s_proc x = Reaped) /\
    (s_open x <> [] -> c = Install /\ set_up e /\ e_nl e 0 = false /\ (e_mount e = true -> e_umount e = true -> e_nl e 1 = false)) /\
    (s_dev x <> None -> c = Install /\ ((e_netlink e = true /\ e_connect e = ConnLost) \/ removal_fails e 0))).
  { intros x (N1 & N2 & N3). split; [exact N3|]. split; intros Z; congruence. }
  destruct (run_cases c e s (proj1 N)) as [X|[(x & X & Y & _)|[(ok & x & X & _ & Y & _)|[(k & -> & X)|(x & X & _)]]]]; rewrite X in H.
  - injection H as _ <-. apply G, N.
  - injection H as _ <-. apply G, Y.
  - injection H as _ <-. apply G, Y.
  - pose proof (after_shape e (s_next s) ((s_log s ++ started (s_next s)) ++ repeat (ETalk (S (s_next s))) k)) as A. rewrite H in A.
    destruct A as (_ & _ & A1 & A2 & A3 & _). split; [right; exact A1|]. split; intros Z; split; try reflexivity; auto.
  - discriminate.
Qed.
Lemma c81_descriptors_ok : forall c e s, s_open s = [] -> exists es, calls_since s es (state_of (run c e s)) /\ calls [] es = Some (s_open (state_of (run c e s))).
Proof.
  intros c e s N. unfold calls_since. destruct (run_cases c e s N) as [X|[(x & X & Y & E)|[(ok & x & X & _ & Y & _ & E)|[(k & -> & X)|(x & X & _ & E)]]]]; rewrite X; cbn [state_of].
  - exists []. rewrite app_nil_r, N. auto.
  - destruct Y as (-> & _). exact E.
  - destruct Y as (-> & _). exact E.
  - pose proof (after_shape e (s_next s) ((s_log s ++ started (s_next s)) ++ repeat (ETalk (S (s_next s))) k)) as A.
    destruct (after_check _ _ _) as [r s'|s'|s']; cbn [state_of]; [| destruct A |];
    (destruct A as ((es & L & C) & _); rewrite L, log3; eexists; split; [reflexivity|]; rewrite calls_app, calls_started; exact C).
  - exact E.
Qed.
Lemma c81_hangs_ok : forall c e s s', s_open s = [] -> run c e s = Hangs s' -> c = Install /\ set_up e /\ kept_in_use e /\ removal_fails e 0 /\
  (e_mount e = true -> e_umount e = true -> e_nl e 0 = false -> removal_fails e 1) /\ (e_mount e = true -> e_dies e = false).
Proof.
  intros c e s s' N H. destruct (run_cases c e s N) as [X|[(x & X & _)|[(ok & x & X & _)|[(k & -> & X)|(x & X & _)]]]]; rewrite X in H; try discriminate.
  pose proof (after_shape e (s_next s) ((s_log s ++ started (s_next s)) ++ repeat (ETalk (S (s_next s))) k)) as A. rewrite H in A. tauto.
Qed.
Lemma c81_aborts_ok : forall c e s, s_open s = [] -> (exists s', run c e s = Aborts s') <-> dies_early e.
Proof.
  intros c e s N. split.
  - intros (s' & H). destruct (run_cases c e s N) as [X|[(x & X & _)|[(ok & x & X & _)|[(k & -> & X)|(x & X & D & _)]]]]; rewrite X in H; try discriminate; [|exact D].
    pose proof (after_shape e (s_next s) ((s_log s ++ started (s_next s)) ++ repeat (ETalk (S (s_next s))) k)) as A. rewrite H in A. destruct A.
  - intros (E1 & E2 & E3 & D).
    assert (K : exists s', check e s = Aborts s').
    { unfold check, start_server. rewrite E1. cbn [negb]. unfold socketpair. rewrite E2. cbn [negb]. rewrite E3. cbn [negb]. destruct D as [-> |(-> & m & r & ->)]; cbn [andthen negb b_sock]; [eauto|].
      destruct (reads_not_dying m r (S (s_next s)) (log (ETalk (S (s_next s))) (log ESpawn (set_proc Running (close (s_next s) (mkSt (S (S (s_next s))) (s_next s :: S (s_next s) :: s_open s) (Some (S (s_next s))) None NoServer false None (s_log s ++ [EPair (s_next s) (S (s_next s))]))))))) as (x & R).
      rewrite R. cbn [andthen]. eauto. }
    destruct K as (s' & K). exists s'. destruct c; cbn [run]; unfold run_info, run_install; rewrite K; reflexivity.
Qed.
(** the result of an installation: the bundle was mounted exactly if everything works *)
Lemma c81_mounted_ok : forall e s r s', s_open s = [] -> run Install e s = Done r s' -> r = true -> set_up e /\ e_mount e = true /\ s_proc s' = Reaped.
Proof.
  intros e s r s' N H ->. destruct (run_cases Install e s N) as [X|[(x & X & _)|[(ok & x & X & Y & _)|[(k & _ & X)|(x & X & _)]]]]; rewrite X in H; try discriminate.
  - destruct Y as [Y|Y]; [discriminate|]. congruence.
  - pose proof (after_shape e (s_next s) ((s_log s ++ started (s_next s)) ++ repeat (ETalk (S (s_next s))) k)) as A. rewrite H in A. tauto.
Qed.

(** ** rauc mount *)
Lemma c81_mount_ok : forall e s r s', nothing_left s -> run_mount e s = Done r s' ->
  if r then s_open s' = [] /\ s_dev s' <> None /\ s_proc s' = Running /\ server_ends s' = false /\
            s_dev (user_umount s') = None /\ server_ends (user_umount s') = true
  else netlink_works e -> nothing_left s'.
Proof.
  intros e s r s' N H. assert (X : checked e (s_next s) (s_log s) (check e s) s) by (apply check_shape, N). unfold run_mount in H.
  destruct X as [X|[(b & X & _)|[(k & ok & p & X & Hp)|(k & X & D)]]]; rewrite X in H; cbn [andthen negb] in H.
  - injection H as <- <-. intros _. exact N.
  - injection H as <- <-. intros _. unfold nothing_left. cbn. auto.
  - assert (Hp' : p = Running \/ p = Exited) by (destruct Hp as [-> | [-> _]]; auto).
    destruct ok; cbn [negb] in H.
    + destruct Hp as [-> | [_ Hp]]; [|discriminate]. clear Hp'. revert H. generalize ((s_log s ++ started (s_next s)) ++ repeat (ETalk (S (s_next s))) k). intros lg.
      generalize (s_next s). intros n.
      rewrite mount_shape. unfold netlink_works, nothing_left.
      destruct (e_netlink e) eqn:E1; [destruct (e_connect e) eqn:E2; [destruct (e_open e) eqn:E3; [destruct (e_reconf e) eqn:E4; [destruct (e_mount e) eqn:E5; [|destruct (e_stays e) eqn:E6]|]|]|..]|].
      2-8: destruct (e_nl e 0) eqn:E10; [destruct (e_sent e 0) eqn:E11|].
      all: unfold free, remove_device, stop_server, dv_st, mid, exit_process; repeat (fds; rewrite ?E10, ?E11; cbn [negb]).
      all: intros H; try discriminate H; injection H as <- <-; cbv iota; try (intros [Hc Hk]; destruct (Hk 0) as [Hk0 Hk0']; try congruence); fds; intuition congruence.
    + destruct (free_mid e (s_next s) p ((s_log s ++ started (s_next s)) ++ repeat (ETalk (S (s_next s))) k) Hp') as (x & F & Nx & L). rewrite F in H. cbn [andthen] in H.
      injection H as <- <-. intros _. exact Nx.
  - discriminate.
Qed.

(** ** privileges *)
Lemma c81_root_ok : forall me db c, c_uid me = 0%N -> spawn_server me db = Some (Some c) ->
  exists u, db = Some u /\ (u_uid u <> 0%N -> c_uid c = u_uid u) /\ (u_gid u <> 0%N -> c_gid c = u_gid u) /\ (u_groups u <> [] -> c_groups c = u_groups u).
Proof.
  intros [mu mg ms] db c H. cbn [c_uid] in H. subst mu. unfold spawn_server, child_prepare. cbn [c_uid c_gid]. cbn [N.eqb negb andb].
  destruct db as [[u g gs]|]; [|discriminate]. intros H. apply Some_inj in H. exists (mkUser u g gs). split; [reflexivity|]. cbn [u_uid u_gid u_groups].
  unfold child_setup in H. cbn [u_groups u_gid u_uid] in H.
  assert (E : obind (if N.eqb g 0 then Some (mkCred 0 mg (match gs with [] => ms | l => l end)) else setgid g (mkCred 0 mg (match gs with [] => ms | l => l end)))
    (fun c => if N.eqb u 0 then Some c else setuid u c) = Some c) by (destruct gs; exact H). clear H.
  destruct (N.eqb_spec g 0) as [-> |Hg]; cbn [obind setgid c_uid N.eqb orb] in E.
  - destruct (N.eqb_spec u 0) as [-> |Hu]; [apply Some_inj in E; subst c; cbn|unfold setuid in E; cbn [c_uid N.eqb orb] in E; apply Some_inj in E; subst c; cbn];
      (split; [congruence|split; [congruence|destruct gs; congruence]]).
  - destruct (N.eqb_spec u 0) as [-> |Hu]; [apply Some_inj in E; subst c; cbn|unfold setuid in E; cbn [c_uid N.eqb orb] in E; apply Some_inj in E; subst c; cbn];
      (split; [congruence|split; [congruence|destruct gs; congruence]]).
Qed.
Lemma c81_user_ok : forall me db, c_uid me <> 0%N ->
  (c_gid me <> 0%N -> spawn_server me db = Some (Some me)) /\
  (forall c, spawn_server me db = Some (Some c) -> c_uid c = c_uid me /\ (c_groups c = c_groups me)).
Proof.
  intros [mu mg ms] db H. cbn [c_uid c_gid c_groups] in *. unfold spawn_server, child_prepare. cbn [c_uid c_gid]. destruct (N.eqb_spec mu 0) as [E|_]; [congruence|]. cbn [negb andb]. split.
  - intros G. destruct (N.eqb_spec mg 0) as [E|_]; [congruence|]. reflexivity.
  - intros c. destruct (N.eqb_spec mg 0) as [-> |_]; cbn [negb].
    + destruct db as [[u g gs]|]; [|discriminate]. cbn [child_setup u_groups u_gid u_uid]. intros X. apply Some_inj in X.
      destruct gs as [|x gs].
      * cbn [obind] in X. unfold setgid, setuid in X. cbn [c_uid c_gid] in X. destruct (N.eqb_spec mu 0) as [E|_]; [congruence|]. cbn [orb] in X.
        destruct (N.eqb_spec g 0) as [-> |Hg].
        -- cbn [obind] in X. destruct (N.eqb_spec u 0) as [-> |Hu]; [apply Some_inj in X; subst c; auto|]. cbn [c_uid] in X. destruct (N.eqb_spec mu 0) as [E|_]; [congruence|]. cbn [orb] in X. destruct (N.eqb_spec mu u) as [-> |_]; [apply Some_inj in X; subst c; auto|discriminate].
        -- destruct (N.eqb_spec 0 g) as [E|_]; [congruence|]. discriminate.
      * unfold setgroups in X. cbn [c_uid] in X. destruct (N.eqb_spec mu 0) as [E|_]; [congruence|]. discriminate.
    + intros X. apply Some_inj in X. cbn [child_setup] in X. apply Some_inj in X. subst c. auto.
Qed.
(** ** what does not hold *)
Definition good_env : env := mkEnv true true true CfgOk [RdOk; RdOk] true true ConnOk true true true false false true false (fun _ => true) (fun _ => true) true.
Lemma c81_dead_server_refuted : ~ (forall c e s, nothing_left s -> e_connect e <> ConnLost -> exists r s', run c e s = Done r s' \/ run c e s = Hangs s').
Proof.
  intros H. destruct (H Info (mkEnv true true true CfgOk [RdOk; RdDies] true true ConnOk true true true false false true false (fun _ => true) (fun _ => true) true) st0) as (r & s' & [E|E]); try discriminate E.
  - unfold nothing_left. cbn. auto.
  - discriminate.
Qed.
Lemma c81_no_leak_refuted : ~ (forall c e s r s', nothing_left s -> e_connect e <> ConnLost -> run c e s = Done r s' -> s_open s' = []).
Proof.
  intros H. set (e := mkEnv true true true CfgOk [RdOk; RdOk] true true ConnOk true true true false false true false (fun _ => false) (fun _ => true) true).
  destruct (run Install e st0) as [r s'| |] eqn:E; try discriminate E.
  assert (X : s_open s' = []). { eapply (H Install e st0); [unfold nothing_left; cbn; auto|discriminate|exact E]. }
  vm_compute in E. injection E as _ <-. discriminate X.
Qed.
Lemma c81_no_hang_refuted : ~ (forall c e s s', nothing_left s -> run c e s <> Hangs s').
Proof.
  intros H. set (e := mkEnv true true true CfgOk [RdOk; RdOk] true true ConnOk true true true false false false false (fun _ => false) (fun _ => true) true).
  destruct (run Install e st0) as [| |s'] eqn:E; try discriminate E. apply (H Install e st0 s'); [unfold nothing_left; cbn; auto|exact E].
Qed.
(** an ordinary user whose primary group is 0 cannot stream: the server never runs, so that rauc aborts *)
Lemma c81_group_zero_refuted : ~ (forall me u, c_uid me <> 0%N -> u_groups u <> [] -> exists c, spawn_server me (Some u) = Some (Some c)).
Proof. intros H. destruct (H (mkCred 1000 0 [0]%N) (mkUser 999 999 [999]%N)) as (c & E); try discriminate. Qed.
Lemma c81_mount_descriptors_ok : forall e s, s_open s = [] -> exists es, calls_since s es (state_of (run_mount e s)) /\ calls [] es = Some (s_open (state_of (run_mount e s))).
Proof.
  intros e s N. assert (X : checked e (s_next s) (s_log s) (check e s) s) by (apply check_shape, N). unfold run_mount, calls_since.
  destruct X as [X|[(b & X & _)|[(k & ok & p & X & Hp)|(k & X & D)]]]; rewrite X; cbn [andthen negb].
  - exists []. unfold free. cbn. rewrite app_nil_r, N. auto.
  - unfold free. cbn [remove_device b_dev bun0 stop_server b_sproc negb andthen state_of s_log s_open]. eexists. split; [reflexivity|]. cbn [app]; fds; try reflexivity.
  - assert (Hp' : p = Running \/ p = Exited) by (destruct Hp as [-> | [-> _]]; auto).
    destruct ok; cbn [negb].
    + destruct Hp as [-> | [_ Hp]]; [|discriminate]. clear Hp'.
      assert (G : forall lg n, exists es, s_log (state_of (match mount e (mkBun true (Some (S n)) None 0) (mid n Running lg) with
        | (false, bu, s) => andthen (free e bu s) (fun _ s => Done false s) | (true, _, s) => Done true (exit_process s) end)) = lg ++ es /\
        calls [S n] es = Some (s_open (state_of (match mount e (mkBun true (Some (S n)) None 0) (mid n Running lg) with
        | (false, bu, s) => andthen (free e bu s) (fun _ s => Done false s) | (true, _, s) => Done true (exit_process s) end)))).
      { intros lg n. rewrite mount_shape.
        destruct (e_netlink e) eqn:E1; [destruct (e_connect e) eqn:E2; [destruct (e_open e) eqn:E3; [destruct (e_reconf e) eqn:E4; [destruct (e_mount e) eqn:E5; [|destruct (e_stays e) eqn:E6]|]|]|..]|].
        2-8: destruct (e_nl e 0) eqn:E10; [destruct (e_sent e 0) eqn:E11|].
        all: unfold free, remove_device, stop_server, dv_st, mid, exit_process; repeat (fds; rewrite ?E10, ?E11; cbn [negb]).
        all: eexists; split; [rewrite <- ?app_assoc; reflexivity|cbn [app]; fds; reflexivity]. }
      destruct (G ((s_log s ++ started (s_next s)) ++ repeat (ETalk (S (s_next s))) k) (s_next s)) as (es & G1 & G2). rewrite G1, log3. eexists. split; [reflexivity|].
      rewrite calls_app, calls_started. exact G2.
    + destruct (free_mid e (s_next s) p ((s_log s ++ started (s_next s)) ++ repeat (ETalk (S (s_next s))) k) Hp') as (x & F & Nx & L). rewrite F. cbn [andthen state_of].
      rewrite L, log3. eexists. split; [reflexivity|]. rewrite calls_app, calls_started. destruct Nx as (-> & _). fds. reflexivity.
  - cbn [state_of]. unfold mid. cbn [s_log s_open]. rewrite <- app_assoc. eexists. split; [reflexivity|]. apply calls_started.
Qed.
