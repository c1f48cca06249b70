(** Proofs for C61. *)
From Verif Require Import Base BaseLemmas DmStack DmStackSpec.

Lemma bind_inv {A B} (m : M A) (f : A -> M B) w b w' : DmStack.bind m f w = (b, w') ->
  exists a w1, m w = (a, w1) /\ f a w1 = (b, w').
Proof. unfold DmStack.bind. destruct (m w) as [a w1] eqn:E. intros H. eauto. Qed.

Lemma ret_inv {A} (a b : A) w w' : ret a w = (b, w') -> b = a /\ w' = w.
Proof. intros H. injection H as H1 H2. auto. Qed.

Definition allowed (o : hist -> kact -> ans) (w : world) (a : kact) (r : ans) : Prop :=
  if feasible (w_k w) a && minor_ok (w_k w) a (o (w_tr w) a) then r = o (w_tr w) a
  else r = match a with KLoopSetFd _ => Busy | _ => Bad end.

Lemma call_inv o a w r w' : call o a w = (r, w') ->
  w' = {| w_k := settle (effect (w_k w) a r); w_tr := w_tr w ++ [(a, r)] |} /\ allowed o w a r.
Proof.
  unfold call, allowed. intros H. injection H as H1 H2. subst r w'. split; [reflexivity|].
  destruct (feasible _ _ && minor_ok _ _ _); reflexivity.
Qed.

Lemma worked_inv o a w b w' : worked o a w = (b, w') -> exists r, b = is_good r /\
  w' = {| w_k := settle (effect (w_k w) a r); w_tr := w_tr w ++ [(a, r)] |} /\ allowed o w a r.
Proof.
  unfold worked. intros H. apply bind_inv in H. destruct H as (r & w1 & H & E). apply ret_inv in E. destruct E as [-> ->].
  exists r. split; [reflexivity|]. apply call_inv. exact H.
Qed.

(** one step of symbolic execution *)
Ltac red_all := cbv beta iota delta [settle settle_loop settle_dm effect set_fds set_loops set_dms set_mnts set_dir upd_dm remove_one
   k_loops k_fds k_dms k_mnts k_dir w_k w_tr map List.filter List.find find_dm dm_uses fd_uses in_use exists_dev has_fd
   existsb desc_eqb dev_eqb dk_eqb d_kind d_minor d_table d_active d_pending l_auto l_ro l_limit t_lower t_sectors t_params t_ro
   m_dev m_flags fst snd negb andb orb tl feasible minor_ok is_good allowed] in *.
Ltac sim := red_all; repeat match goal with
  | H : context [N.eqb ?n ?n] |- _ => rewrite (N.eqb_refl n) in H
  | |- context [N.eqb ?n ?n] => rewrite (N.eqb_refl n)
  | E : N.eqb ?n ?m = false, H : context [N.eqb ?n ?m] |- _ => lazymatch type of H with N.eqb _ _ = false => fail | _ => rewrite E in H end
  | E : N.eqb ?n ?m = false |- context [N.eqb ?n ?m] => rewrite E
  end.
Ltac sims := repeat (progress sim).
Ltac step_call H r :=
  apply bind_inv in H; destruct H as (r & ?w & ?C & H);
  match goal with C : call _ _ _ = (r, _) |- _ => apply call_inv in C; destruct C as [-> ?AL] end; sims.
Ltac step_worked H r :=
  apply bind_inv in H; let b := fresh "b" in destruct H as (b & ?w & ?C & H);
  match goal with C : worked _ _ _ = (b, _) |- _ => apply worked_inv in C; destruct C as (r & -> & -> & ?AL) end; sims.
Ltac fin H := apply ret_inv in H; destruct H as [? ?]; subst; sims.

Lemma count_app p t u : count p (t ++ u) = count p t + count p u.
Proof. unfold count. rewrite filter_app, app_length. reflexivity. Qed.
Lemma count_cons p a r t : count p ((a, r) :: t) = (if p a then 1 else 0) + count p t.
Proof. unfold count. cbn [List.filter fst]. destruct (p a); reflexivity. Qed.
Lemma count_nil p : count p [] = 0.
Proof. reflexivity. Qed.

Lemma claim_spec o d : forall tries tr r w',
  claim o tries {| w_k := {| k_loops := []; k_fds := [FLoopControl]; k_dms := []; k_mnts := []; k_dir := d |}; w_tr := tr |} = (r, w') ->
  exists t, w_tr w' = tr ++ t /\ count is_free t <= tries /\ count is_mount t = 0 /\
  match r with
  | None => w_k w' = {| k_loops := []; k_fds := [FLoopControl]; k_dms := []; k_mnts := []; k_dir := d |}
  | Some n => w_k w' = {| k_loops := [(n, {| l_limit := None; l_ro := false; l_auto := false |})];
                          k_fds := [FLoop n; FLoopControl]; k_dms := []; k_mnts := []; k_dir := d |}
  end.
Proof.
  induction tries as [|k IH]; intros tr r w' H.
  - fin H. exists []. rewrite app_nil_r. auto.
  - cbn [claim] in H. step_call H r0. destruct r0 as [n|s| |]; sims.
    2,3,4: (fin H; eexists [_]; split; [reflexivity|]; split; [cbn; lia|]; split; reflexivity).
    step_call H r1. destruct r1 as [v|s| |]; sims.
    2,4: (fin H; eexists [_; _]; split; [rewrite <- app_assoc; reflexivity|]; split; [cbn; lia|]; split; reflexivity).
    2:{ apply IH in H. destruct H as (t & E & C1 & C2 & H).
        exists ((KLoopFree, Good n) :: (KLoopOpen n, Busy) :: t). rewrite E, <- !app_assoc. split; [reflexivity|].
        split; [cbn in *; unfold count in *; cbn in *; lia|]. split; [exact C2|exact H]. }
    step_call H r2. destruct r2 as [v2|s| |]; sims.
    + fin H. eexists [_; _; _]. split; [rewrite <- !app_assoc; reflexivity|]. split; [cbn; lia|]. split; reflexivity.
    + step_call H r3. fin H. eexists [_; _; _; _]. split; [rewrite <- !app_assoc; reflexivity|]. split; [cbn; lia|]. split; reflexivity.
    + step_call H r3. apply IH in H. destruct H as (t & E & C1 & C2 & H).
      eexists (_ :: _ :: _ :: _ :: t). rewrite E, <- !app_assoc. split; [reflexivity|].
      split; [cbn in *; unfold count in *; cbn in *; lia|]. split; [exact C2|exact H].
    + step_call H r3. fin H. eexists [_; _; _; _]. split; [rewrite <- !app_assoc; reflexivity|]. split; [cbn; lia|]. split; reflexivity.
Qed.

Lemma effect_block s n z r : effect s (KLoopBlock n z) r = s.
Proof. destruct r; reflexivity. Qed.

Definition base (d : bool) : kst := {| k_loops := []; k_fds := []; k_dms := []; k_mnts := []; k_dir := d |}.
Definition looped (n : N) (size : Z) (d : bool) : kst :=
  {| k_loops := [loop_layer n size]; k_fds := [FLoop n]; k_dms := []; k_mnts := []; k_dir := d |}.

Lemma setup_loop_spec o size d : forall tr r w',
  setup_loop o size {| w_k := base d; w_tr := tr |} = (r, w') ->
  exists t, w_tr w' = tr ++ t /\ count is_free t <= 10 /\ count is_mount t = 0 /\
  match r with
  | Fail _ => releases_work o -> w_k w' = base d
  | Ok' n => (0 < size)%Z /\ w_k w' = looped n size d /\ did t (KLoopStatus n size true true)
  end.
Proof.
  intros tr r w' H. unfold setup_loop, base in *. destruct (size <=? 0)%Z eqn:SZ.
  { fin H. exists []. rewrite app_nil_r. split; [reflexivity|]. split; [cbn; lia|]. split; reflexivity. }
  step_worked H r0. destruct r0 as [v|s| |]; sims.
  2,3,4: (fin H; eexists [_]; split; [reflexivity|]; split; [cbn; lia|]; split; reflexivity).
  apply bind_inv in H. destruct H as (n & w1 & H1 & H). apply claim_spec in H1.
  destruct H1 as (t1 & T1 & F1 & M1 & S1). destruct w1 as [k1 h1]. cbn [w_k w_tr] in *. subst h1.
  destruct n as [n|]; subst k1.
  2:{ step_call H r1. fin H. eexists (_ :: t1 ++ [_]). split; [rewrite <- !app_assoc; reflexivity|].
      rewrite !count_cons, !count_app, !count_cons, !count_nil; cbn [is_free is_mount]. split; [lia|]. split; [lia|reflexivity]. }
  step_worked H r1. destruct r1 as [v1|s| |]; sims.
  2,3,4: (step_call H r2; step_call H r3; step_call H r4; fin H;
     eexists (_ :: t1 ++ [_; _; _; _]); split; [rewrite <- !app_assoc; reflexivity|];
     rewrite !count_cons, !count_app, !count_cons, !count_nil; cbn [is_free is_mount]; split; [lia|]; split; [lia|];
     intros RW; rewrite RW in * by reflexivity; subst; sims; reflexivity).
  apply bind_inv in H. destruct H as (r2 & w2 & C2 & H). apply call_inv in C2. destruct C2 as [-> _].
  rewrite effect_block in H. sims.
  step_call H r3. fin H.
  eexists (_ :: t1 ++ [_; _; _]). split; [rewrite <- !app_assoc; reflexivity|].
  rewrite !count_cons, !count_app, !count_cons, !count_nil; cbn [is_free is_mount]. split; [lia|]. split; [lia|].
  split; [lia|]. split; [unfold looped, loop_layer; sims; reflexivity|].
  exists v1. right. apply in_or_app. right. left. reflexivity.
Qed.

(** ** Device mapper *)

Lemma allowed_good o w a v : allowed o w a (Good v) -> feasible (w_k w) a = true /\ minor_ok (w_k w) a (Good v) = true.
Proof.
  unfold allowed. destruct (feasible (w_k w) a); cbn [andb]; [|destruct a; discriminate].
  destruct (minor_ok (w_k w) a (o (w_tr w) a)) eqn:E; [|destruct a; discriminate].
  intros H. rewrite <- H in E. auto.
Qed.

Lemma split_first f s : forall t, split_on f s = t -> exists x r, t = x :: r.
Proof. intros t <-. destruct s as [|c s]; cbn; [eauto|]. destruct (Ascii.eqb c f); [eauto|]. destruct (split_on f s); eauto. Qed.

Lemma status_verity r : check_status Verity r = true -> exists s, r = Said s /\ (s = "V" \/ exists x, s = ("V " ++ x)%string).
Proof.
  destruct r as [v|s| |]; try discriminate. cbn [check_status]. intros H. exists s. split; [reflexivity|].
  destruct s as [|c s]; [discriminate|]. unfold g_strsplit in H. cbn [split_on] in H.
  destruct (Ascii.eqb c " ") eqn:C; [discriminate|].
  destruct (split_on " " s) as [|x r] eqn:E.
  - destruct s as [|c' s]; cbn [split_on] in E; [discriminate|]. destruct (Ascii.eqb c' " "); [discriminate|]. destruct (split_on " " s); discriminate.
  - apply String.eqb_eq in H. injection H as -> Hx. subst x.
    destruct s as [|c' s]; [left; reflexivity|]. right. exists s. cbn [split_on] in E.
    destruct (Ascii.eqb c' " ") eqn:C'.
    + apply Ascii.eqb_eq in C'. subst c'. reflexivity.
    + destruct (split_on " " s); discriminate.
Qed.
Lemma status_crypt r : check_status Crypt r = true -> r = Said "".
Proof.
  destruct r as [v|s| |]; try discriminate. cbn [check_status]. destruct s as [|c s]; [reflexivity|].
  unfold g_strsplit. cbn [split_on]. destruct (Ascii.eqb c " "); [discriminate|]. destruct (split_on " " s); discriminate.
Qed.
Lemma status_ok k r : check_status k r = true -> exists s, r = Said s /\
    match k with Verity => s = "V" \/ exists r, s = ("V " ++ r)%string | Crypt => s = "" end.
Proof. destruct k; intros H; [apply status_verity, H|]. exists "". split; [apply status_crypt, H|reflexivity]. Qed.

Lemma effect_status s k r : effect s (KDmStatus k) r = s.
Proof. destruct r; reflexivity. Qed.

Definition with_dms (n : N) (size : Z) (D : list dmst) : kst :=
  {| k_loops := [loop_layer n size]; k_fds := [FLoop n]; k_dms := D; k_mnts := []; k_dir := true |}.
Definition new_dm (q : dmreq) (m : N) : dmst :=
  {| d_kind := r_kind q; d_minor := m;
     d_table := Some {| t_sectors := r_size q / 512; t_params := params q; t_lower := r_lower q; t_ro := true |};
     d_active := true; d_pending := false |}.

Definition setup_post (o : hist -> kact -> ans) (n : N) (size : Z) (D : list dmst) (q : dmreq) (tr : hist) (r : dmres N) (w' : world) : Prop :=
  exists t, w_tr w' = tr ++ t /\ count is_free t = 0 /\ count is_mount t = 0 /\
  match r with
  | Fail _ => releases_work o -> w_k w' = with_dms n size D
  | Ok' m => w_k w' = with_dms n size (new_dm q m :: D) /\ r_size q <> 0%N /\ (r_size q mod 4096 = 0)%N /\
             String.length (params q) < 1024 /\ layer_checked t (r_kind q) m /\
             forall x, In x D -> d_minor x <> m
  end.

Ltac trace := rewrite <- ?app_assoc; reflexivity.
Ltac counts := rewrite ?count_app, ?count_cons, ?count_nil; cbn [is_free is_mount]; lia.
Ltac tr_split := first
    [ exists []; split; [rewrite app_nil_r; reflexivity|]
    | eexists [_]; split; [trace|]
    | eexists [_; _]; split; [trace|]
    | eexists [_; _; _]; split; [trace|]
    | eexists [_; _; _; _]; split; [trace|]
    | eexists [_; _; _; _; _]; split; [trace|]
    | eexists [_; _; _; _; _; _]; split; [trace|]
    | eexists [_; _; _; _; _; _; _]; split; [trace|]
    | eexists [_; _; _; _; _; _; _; _]; split; [trace|]
    | eexists [_; _; _; _; _; _; _; _; _]; split; [trace|]
    | eexists [_; _; _; _; _; _; _; _; _; _]; split; [trace|]
    | eexists [_; _; _; _; _; _; _; _; _; _; _]; split; [trace|]
    | eexists [_; _; _; _; _; _; _; _; _; _; _; _]; split; [trace|]
    | eexists [_; _; _; _; _; _; _; _; _; _; _; _; _]; split; [trace|]
    | eexists [_; _; _; _; _; _; _; _; _; _; _; _; _; _]; split; [trace|]];
  split; [counts|]; split; [counts|].
Ltac nochange := tr_split; intros _; unfold with_dms, loop_layer; reflexivity.
Ltac ret_tt H := let u := fresh "u" in let w := fresh "w" in let E := fresh "E" in
  apply bind_inv in H; destruct H as (u & w & E & H); apply ret_inv in E; destruct E as [-> ->].
Ltac raw_call H r A := apply bind_inv in H; let w := fresh "w" in let C := fresh "C" in
  destruct H as (r & w & C & H); apply call_inv in C; destruct C as [-> A].
(** the calls of setup_undo; their answers are fixed only by [releases_work] *)
Ltac removing H :=
  let r := fresh "r" in let A := fresh "A" in
  raw_call H r A; destruct r as [?|?| |]; sims;
  let r' := fresh "r" in step_call H r'; fin H; tr_split;
  let RW := fresh "RW" in intros RW; rewrite RW in A by reflexivity; first [discriminate A | reflexivity].
Ltac undo H := unfold setup_undo in H;
  first [ ret_tt H | apply bind_inv in H; let u := fresh "u" in let w := fresh "w" in let E := fresh "E" in
                     destruct H as (u & w & E & H); let r := fresh "r" in step_call E r; apply ret_inv in E; destruct E as [-> ->] ];
  removing H.

Ltac find_in := repeat first [left; reflexivity | right].
Ltac setup_script :=
  match goal with H : (if (?sz =? 0)%N then _ else _) _ = _ |- _ =>
    let Z0 := fresh "Z0" in let Z4 := fresh "Z4" in
    destruct (sz =? 0)%N eqn:Z0; [fin H; nochange|];
    destruct (sz mod 4096 =? 0)%N eqn:Z4; cbn [negb] in H; [|fin H; nochange];
    let r0 := fresh "r0" in step_worked H r0; destruct r0 as [?|?| |]; sims; [|fin H; nochange..];
    let r1 := fresh "r1" in let A1 := fresh "A1" in
    raw_call H r1 A1; destruct r1 as [?m|?| |]; [|sims; let r2 := fresh "r" in step_call H r2; fin H; nochange..];
    apply allowed_good in A1; destruct A1 as [_ A1]; red_all;
    try match type of A1 with context [N.eqb ?x ?y] =>
      let E := fresh "NE" in destruct (N.eqb x y) eqn:E; [discriminate A1|];
      let E' := fresh "NE" in pose proof E as E'; rewrite N.eqb_sym in E' end;
    sims;
    let LN := fresh "LN" in match type of H with (if ?c then _ else _) _ = _ => destruct c eqn:LN end; [undo H|];
    let r3 := fresh "r3" in step_worked H r3; destruct r3 as [?|?| |]; sims; [|undo H..];
    let r4 := fresh "r4" in step_worked H r4; destruct r4 as [?|?| |]; sims; [|undo H..];
    let r5 := fresh "r5" in step_worked H r5; destruct r5 as [?|?| |]; sims; [|undo H..];
    let r6 := fresh "r6" in step_worked H r6; destruct r6 as [?|?| |]; sims; [|undo H..];
    let r7 := fresh "r7" in let A7 := fresh "A7" in raw_call H r7 A7; rewrite effect_status in H; sims;
    let ST := fresh "ST" in match type of H with (if (if ?c then _ else _) then _ else _) _ = _ => destruct c eqn:ST end; [|undo H]; clear A7;
    let r8 := fresh "r8" in step_call H r8; let r9 := fresh "r9" in step_call H r9; fin H; tr_split
  end.

Lemma dm_setup_verity o n size sz dg sa ke tr r w' :
  let q := {| r_kind := Verity; r_lower := DLoop n; r_size := sz; r_digest := dg; r_salt := sa; r_key := ke |} in
  dm_setup o q {| w_k := with_dms n size []; w_tr := tr |} = (r, w') -> setup_post o n size [] q tr r w'.
Proof.
  intros q H. unfold setup_post, new_dm, dm_setup in *. remember (params q) as pq eqn:PQ.
  unfold q in H |- *. cbn [r_kind r_lower r_size] in H |- *. unfold with_dms, loop_layer in H.
  setup_script.
  split; [reflexivity|]. split; [apply N.eqb_neq; assumption|]. split; [apply N.eqb_eq; assumption|].
  split; [apply Nat.leb_gt; assumption|]. split; [|intros x []].
  apply status_ok in ST. destruct ST as (txt & -> & ST).
  split; [find_in|]. split; [eexists; find_in|]. exists txt. split; [find_in|exact ST].
Qed.

Lemma dm_setup_crypt o n size m tb sz dg sa ke tr r w' :
  let q := {| r_kind := Crypt; r_lower := DDm m; r_size := sz; r_digest := dg; r_salt := sa; r_key := ke |} in
  let D := [{| d_kind := Verity; d_minor := m; d_table := Some tb; d_active := true; d_pending := false |}] in
  t_lower tb = DLoop n ->
  dm_setup o q {| w_k := with_dms n size D; w_tr := tr |} = (r, w') -> setup_post o n size D q tr r w'.
Proof.
  intros q D LW H. destruct tb as [ts tp tl tro]. cbn [t_lower] in LW. subst tl.
  unfold setup_post, new_dm, dm_setup, D in *. remember (params q) as pq eqn:PQ.
  unfold q in H |- *. cbn [r_kind r_lower r_size] in H |- *. unfold with_dms, loop_layer in H.
  setup_script.
  split; [reflexivity|]. split; [apply N.eqb_neq; assumption|]. split; [apply N.eqb_eq; assumption|].
  split; [apply Nat.leb_gt; assumption|]. split.
  - apply status_ok in ST. destruct ST as (txt & -> & ST).
    split; [find_in|]. split; [eexists; find_in|]. exists txt. split; [find_in|exact ST].
  - intros x [<-|[]]. cbn [d_minor]. apply N.eqb_neq. assumption.
Qed.

(** ** The layers of a bundle *)

Lemma did_app_l t u a : did t a -> did (t ++ u) a.
Proof. intros [v H]. exists v. apply in_or_app. auto. Qed.
Lemma did_app_r t u a : did u a -> did (t ++ u) a.
Proof. intros [v H]. exists v. apply in_or_app. auto. Qed.
Lemma checked_app_l t u k m : layer_checked t k m -> layer_checked (t ++ u) k m.
Proof.
  intros (A & B & s & C & D). split; [apply in_or_app; auto|]. split; [apply did_app_l, B|]. exists s.
  split; [apply in_or_app; auto|exact D].
Qed.
Lemma checked_app_r t u k m : layer_checked u k m -> layer_checked (t ++ u) k m.
Proof.
  intros (A & B & s & C & D). split; [apply in_or_app; auto|]. split; [apply did_app_r, B|]. exists s.
  split; [apply in_or_app; auto|exact D].
Qed.

Lemma mount_split : forall A B x f r t1 x' f' r' t2, count is_mount A = 0 -> count is_mount B = 0 ->
  A ++ (KMount x f, r) :: B = t1 ++ (KMount x' f', r') :: t2 -> t1 = A /\ x' = x /\ f' = f /\ r' = r.
Proof.
  induction A as [|[a ra] A IH]; intros B x f r t1 x' f' r' t2 CA CB E.
  - destruct t1 as [|e t1].
    + cbn in E. injection E as -> -> -> _. auto.
    + cbn in E. injection E as _ ->. rewrite count_app, count_cons in CB. cbn in CB. lia.
  - rewrite count_cons in CA. destruct t1 as [|[e re] t1].
    + cbn in E. injection E as -> _ _. cbn in CA. lia.
    + cbn in E. injection E as -> -> E. destruct (IH B x f r t1 x' f' r' t2) as (-> & X); [lia|exact CB|exact E|auto].
Qed.
Lemma no_mount_split A t1 x f r t2 : count is_mount A = 0 -> A = t1 ++ (KMount x f, r) :: t2 -> False.
Proof. intros C ->. rewrite count_app, count_cons in C. cbn in C. lia. Qed.

Definition before_mount (P : hist -> dev -> Prop) (t : hist) : Prop :=
  count is_mount t <= 1 /\
  forall t1 x f r t2, t = t1 ++ (KMount x f, r) :: t2 -> f = mount_flags /\ P t1 x.

Lemma before_none P t : count is_mount t = 0 -> before_mount P t.
Proof. intros C. split; [lia|]. intros t1 x f r t2 E. destruct (no_mount_split _ _ _ _ _ _ C E). Qed.
Lemma before_one (P : hist -> dev -> Prop) A x r B : count is_mount A = 0 -> count is_mount B = 0 -> P A x ->
  before_mount P (A ++ (KMount x mount_flags, r) :: B).
Proof.
  intros CA CB H. split; [rewrite count_app, count_cons, CA, CB; cbn; lia|].
  intros t1 x' f r' t2 E. destruct (mount_split _ _ _ _ _ _ _ _ _ _ CA CB E) as (-> & -> & -> & _). auto.
Qed.

(** the result of [prepare_verity] and friends: [st p p'] is the state after success *)
Definition prep_post (o : hist -> kact -> ans) (n : N) (size : Z) (st : bool -> bool -> kst -> Prop) (P : hist -> dev -> Prop)
  (tr : hist) (r : dmres unit) (w' : world) : Prop :=
  exists t, w_tr w' = tr ++ t /\ count is_free t = 0 /\ before_mount P t /\
  match r with
  | Fail _ => releases_work o -> w_k w' = with_dms n size []
  | Ok' _ => (exists p p', st p p' (w_k w')) /\ (releases_work o -> st true true (w_k w'))
  end.

Lemma params_verity n sz dg sa ke :
  params {| r_kind := Verity; r_lower := DLoop n; r_size := sz; r_digest := dg; r_salt := sa; r_key := ke |} =
  verity_line (loop_name n) (sz / 4096) dg sa.
Proof. reflexivity. Qed.
Lemma params_crypt m sz dg sa ke :
  params {| r_kind := Crypt; r_lower := DDm m; r_size := sz; r_digest := dg; r_salt := sa; r_key := ke |} =
  crypt_line ke (dm_name m).
Proof. reflexivity. Qed.

(** the state while the descriptor of the loop device is still open *)
Definition opened (n : N) (s : kst) : kst := set_fds (FLoop n :: k_fds s) s.
Definition st_plain (n : N) (size : Z) (p p' : bool) (s : kst) : Prop :=
  s = {| k_loops := [loop_layer n size]; k_fds := [FLoop n]; k_dms := []; k_mnts := [mounted_on (DLoop n)]; k_dir := true |}.
Definition st_verity (b : bundle) (n : N) (p p' : bool) (s : kst) : Prop :=
  exists m blocks, data_size b = (4096 * blocks)%N /\ (0 < blocks)%N /\
      s = {| k_loops := [loop_layer n (b_size b)]; k_fds := [FLoop n]; k_dms := [verity_layer b n m blocks p];
             k_mnts := [mounted_on (DDm m)]; k_dir := true |}.
Definition st_crypt (b : bundle) (n : N) (p p' : bool) (s : kst) : Prop :=
  exists m m' blocks, data_size b = (4096 * blocks)%N /\ (0 < blocks)%N /\ m <> m' /\
      s = {| k_loops := [loop_layer n (b_size b)]; k_fds := [FLoop n];
             k_dms := [crypt_layer b m m' blocks p'; verity_layer b n m blocks p];
             k_mnts := [mounted_on (DDm m')]; k_dir := true |}.

Lemma mount_plain_spec o n size tr r w' :
  mount_plain o n {| w_k := with_dms n size []; w_tr := tr |} = (r, w') ->
  prep_post o n size (st_plain n size) (fun _ x => x = DLoop n) tr r w'.
Proof.
  unfold mount_plain, with_dms, loop_layer. intros H. unfold prep_post.
  step_worked H r0. destruct r0 as [?|?| |]; sims.
  2,3,4: (fin H; eexists [_]; split; [trace|]; split; [counts|]; split; [apply (before_one _ [] _ _ []); reflexivity|];
          intros _; reflexivity).
  apply bind_inv in H. destruct H as (b & w1 & C1 & H). apply worked_inv in C1. destruct C1 as (r1 & -> & -> & A1).
  destruct r1 as [?|?| |]; sims.
  1:{ fin H. eexists [_; _]. split; [trace|]. split; [counts|]. split; [apply (before_one _ [] _ _ [_]); reflexivity|].
      unfold st_plain. split; [exists true, true|intros _]; reflexivity. }
  all: raw_call H r2 A2; destruct r2 as [?|?| |]; sims; fin H; (eexists [_; _; _]; split; [trace|]; split; [counts|];
    split; [apply (before_one _ [] _ _ [_; _]); reflexivity|]);
    intros RW; rewrite RW in A2 by reflexivity; first [discriminate A2|reflexivity].
Qed.
