(** Proofs for C61: mount_bundle and umount_bundle. *)
From Verif Require Import Base BaseLemmas DmStack DmStackSpec DmStackProofs DmStackTop.

Definition verified (b : bundle) : bool :=
  (b_signature_verified b || b_verification_disabled b) &&
  match b_format b with Plain => b_payload_verified b || b_verification_disabled b | _ => true end.

Lemma base_settled d : settle (base d) = base d.
Proof. reflexivity. Qed.

(** closing the last descriptor of the loop device below a mounted stack, or with nothing on it *)
Lemma close_mounted o b n tr r w' p p' s :
  match b_format b with Plain => st_plain n (b_size b) p p' s | FVerity => st_verity b n p p' s | FCrypt => st_crypt b n p p' s end ->
  call o (KLoopClose n) {| w_k := s; w_tr := tr |} = (r, w') ->
  holds b p p' (w_k w') /\ w_tr w' = tr ++ [(KLoopClose n, r)].
Proof.
  intros S H. apply call_inv in H. destruct H as [-> _]. cbn [w_k w_tr]. split; [|reflexivity].
  exists n. destruct (b_format b).
  - unfold st_plain in S. subst s. unfold loop_layer, mounted_on. sims. reflexivity.
  - destruct S as (m & bl & SZ & BP & ->). exists m, bl. split; [exact SZ|]. split; [exact BP|].
    unfold verity_layer, loop_layer, mounted_on. destruct p; sims; reflexivity.
  - destruct S as (m & m' & bl & SZ & BP & NM & ->). exists m, m', bl. split; [exact SZ|]. split; [exact BP|]. split; [exact NM|].
    apply N.eqb_neq in NM. pose proof NM as NM'. rewrite N.eqb_sym in NM'.
    unfold verity_layer, crypt_layer, loop_layer, mounted_on. destruct p, p'; sims; reflexivity.
Qed.

Definition mb_post (o : hist -> kact -> ans) (b : bundle) (pre : bool) (r : outcome) (w' : world) : Prop :=
  count is_free (w_tr w') <= 10 /\ before_mount (ready b pre) (w_tr w') /\
  match r with
  | Failed _ => releases_work o -> w_k w' = idle
  | Mounted => verified b = true /\ (0 < b_size b)%Z /\ (exists p p', holds b p p' (w_k w')) /\ (releases_work o -> holds b true true (w_k w'))
  | Aborted => verified b = false /\ count is_mount (w_tr w') = 0
  end.

Lemma before_app (P Q : hist -> dev -> Prop) t u : count is_mount t = 0 -> before_mount P u -> (forall v x, P v x -> Q (t ++ v) x) -> before_mount Q (t ++ u).
Proof.
  intros C [N1 B] I. split; [rewrite count_app; lia|]. intros t1 x f r t2 E.
  assert (X : exists v, t1 = t ++ v /\ u = v ++ (KMount x f, r) :: t2).
  { clear B N1 I. revert t1 E C. induction t as [|[a ra] t IH]; intros t1 E C.
    - exists t1. auto.
    - rewrite count_cons in C. destruct t1 as [|e t1].
      + cbn in E. injection E as -> _ _. cbn in C. lia.
      + cbn in E. injection E as -> E. destruct (IH t1 E) as (v & -> & ->); [lia|]. exists v. auto. }
  destruct X as (v & -> & ->). destruct (B v x f r t2 eq_refl) as [-> X]. auto.
Qed.
Lemma before_snoc (P : hist -> dev -> Prop) t a r : before_mount P t -> is_mount a = false -> before_mount P (t ++ [(a, r)]).
Proof.
  intros [N1 B] NA. split; [rewrite count_app, count_cons, NA, count_nil; lia|]. intros t1 x f r' t2 E.
  destruct t2 as [|e t2] using rev_ind.
  - apply app_inj_tail in E. destruct E as [_ E]. injection E as -> _. discriminate.
  - change (t1 ++ (KMount x f, r') :: t2 ++ [e]) with (t1 ++ ((KMount x f, r') :: t2) ++ [e]) in E. rewrite app_assoc in E.
    apply app_inj_tail in E. destruct E as [E _]. apply (B t1 x f r' t2 E).
Qed.

(** the end of [mount_bundle], bundle.c:3168-3184 *)
Definition finish (o : hist -> kact -> ans) (n : N) (r : dmres unit) : M outcome :=
  match r with
  | Ok' _ => DmStack.bind (call o (KLoopClose n)) (fun _ => ret Mounted)
  | Fail e => DmStack.bind (call o KRmdir) (fun _ => DmStack.bind (call o (KLoopClose n)) (fun _ => ret (Failed e)))
  end.

Lemma finish_spec o b pre n P t1 r0 w1 r w' :
  verified b = true -> (0 < b_size b)%Z ->
  count is_free t1 <= 10 -> count is_mount t1 = 0 -> did t1 (KLoopStatus n (b_size b) true true) ->
  prep_post o n (b_size b) (match b_format b with Plain => st_plain n (b_size b) | FVerity => st_verity b n | FCrypt => st_crypt b n end) P t1 r0 w1 ->
  (forall t x, did t (KLoopStatus n (b_size b) true true) -> (exists u v, t = u ++ v /\ P v x) -> ready b pre t x) ->
  finish o n r0 w1 = (r, w') -> mb_post o b pre r w'.
Proof.
  intros VE SZ F1 M1 D1 (t2 & T2 & F2 & B2 & PR) RD H. destruct w1 as [k1 h1]. cbn [w_k w_tr] in *. subst h1.
  assert (BM : before_mount (ready b pre) (t1 ++ t2)).
  { apply (before_app P); [exact M1|exact B2|]. intros v x PX. apply RD; [apply did_app_l; exact D1|]. exists t1, v. auto. }
  unfold finish in H. destruct r0 as [[]|e].
  - apply bind_inv in H. destruct H as (rc & w2 & HC & H). apply ret_inv in H. destruct H as [-> ->].
    destruct PR as [(p & p' & S) RL].
    assert (S0 : match b_format b with Plain => st_plain n (b_size b) p p' k1 | FVerity => st_verity b n p p' k1 | FCrypt => st_crypt b n p p' k1 end)
      by (destruct (b_format b); exact S).
    pose proof (close_mounted _ _ _ _ _ _ _ _ _ S0 HC) as [HO TR].
    unfold mb_post. rewrite TR. split; [rewrite !count_app, F2, count_cons, count_nil; cbn; lia|].
    split; [apply before_snoc; [exact BM|reflexivity]|]. split; [exact VE|]. split; [exact SZ|]. split; [eauto|].
    intros RW. specialize (RL RW).
    assert (S1 : match b_format b with Plain => st_plain n (b_size b) true true k1 | FVerity => st_verity b n true true k1 | FCrypt => st_crypt b n true true k1 end)
      by (destruct (b_format b); exact RL).
    apply (close_mounted _ _ _ _ _ _ _ _ _ S1 HC).
  - raw_call H rr AR. apply bind_inv in H. destruct H as (rc & w3 & HC & H). apply ret_inv in H. destruct H as [-> ->].
    apply call_inv in HC. destruct HC as [-> AC]. unfold mb_post. cbn [w_tr w_k].
    split; [rewrite !count_app, F2, !count_cons, count_nil; cbn; lia|].
    split; [apply before_snoc; [apply before_snoc; [exact BM|reflexivity]|reflexivity]|].
    intros RW. cbn [w_k w_tr] in *. rewrite (PR RW) in *. clear - AR RW. unfold with_dms, loop_layer in *. sims.
    rewrite RW in AR by reflexivity. subst rr. sims. reflexivity.
Qed.

Lemma mount_bundle_spec o b pre r w' : mount_bundle o b pre start = (r, w') -> mb_post o b pre r w'.
Proof.
  unfold mount_bundle, start. intros H.
  apply bind_inv in H. destruct H as (d & w0 & H0 & H). apply worked_inv in H0. destruct H0 as (r0 & -> & -> & A0).
  cbn [w_k w_tr app] in *. destruct (is_good r0) eqn:G; cbn [negb] in H.
  2:{ apply ret_inv in H. destruct H as [-> ->]. unfold mb_post. cbn [w_tr w_k].
      split; [cbn; lia|]. split; [apply before_none; reflexivity|]. intros _. destruct r0; try discriminate; reflexivity. }
  destruct r0 as [v0| | |]; try discriminate.
  change (settle (effect idle KMkdir (Good v0))) with (base true) in H.
  destruct (b_signature_verified b || b_verification_disabled b) eqn:SV; cbn [negb] in H.
  2:{ apply ret_inv in H. destruct H as [-> ->]. unfold mb_post. cbn [w_tr w_k].
      split; [cbn; lia|]. split; [apply before_none; reflexivity|]. split; [unfold verified; rewrite SV; reflexivity|reflexivity]. }
  apply bind_inv in H. destruct H as (l & w1 & H1 & H). apply setup_loop_spec in H1.
  destruct H1 as (t1 & T1 & F1 & M1 & P1). destruct w1 as [k1 h1]. cbn [w_k w_tr] in *. subst h1.
  destruct l as [n|e].
  2:{ raw_call H r1 A1. apply ret_inv in H. destruct H as [-> ->]. unfold mb_post. cbn [w_tr w_k].
      split; [rewrite !count_app, !count_cons, count_nil; cbn; lia|].
      split; [apply before_none; rewrite !count_app, !count_cons, count_nil, M1; reflexivity|].
      intros RW. cbn [w_k w_tr] in *. rewrite (P1 RW) in *. unfold base in *. sims. rewrite RW in A1 by reflexivity. subst r1. sims. reflexivity. }
  destruct P1 as (SZ & -> & DS). change (looped n (b_size b) true) with (with_dms n (b_size b) []) in H.
  set (T := [(KMkdir, Good v0)] ++ t1) in *.
  assert (FT : count is_free T <= 10) by (unfold T; rewrite count_app, count_cons, count_nil; cbn; lia).
  assert (MT : count is_mount T = 0) by (unfold T; rewrite count_app, count_cons, count_nil, M1; reflexivity).
  assert (DT : did T (KLoopStatus n (b_size b) true true)) by (apply did_app_r; exact DS).
  destruct (b_format b) eqn:FM.
  - destruct (b_payload_verified b || b_verification_disabled b) eqn:PV; cbn [negb] in H.
    2:{ apply ret_inv in H. destruct H as [-> ->]. unfold mb_post. cbn [w_tr w_k].
        split; [exact FT|]. split; [apply before_none; exact MT|]. split; [unfold verified; rewrite SV, FM, PV; reflexivity|exact MT]. }
    apply bind_inv in H. destruct H as (r2 & w2 & H2 & H). apply mount_plain_spec in H2.
    apply (finish_spec o b pre n (fun _ x => x = DLoop n) T r2 w2 r w'); try assumption.
    + unfold verified. rewrite SV, FM, PV. reflexivity.
    + rewrite FM. exact H2.
    + intros t x D (u & v & -> & ->). exists n. split; [exact D|]. rewrite FM. reflexivity.
  - apply bind_inv in H. destruct H as (r2 & w2 & H2 & H). apply prepare_verity_spec in H2.
    match type of H2 with prep_post _ _ _ _ ?P _ _ _ => apply (finish_spec o b pre n P T r2 w2 r w') end; try assumption.
    + unfold verified. rewrite SV, FM. reflexivity.
    + rewrite FM. exact H2.
    + intros t x D (u & v & -> & m & -> & LC & RD). exists n. split; [exact D|]. rewrite FM. exists m. split; [reflexivity|].
      split; [apply checked_app_r; exact LC|]. intros Y. apply did_app_r, RD, Y.
  - apply bind_inv in H. destruct H as (r2 & w2 & H2 & H). apply prepare_crypt_spec in H2.
    match type of H2 with prep_post _ _ _ _ ?P _ _ _ => apply (finish_spec o b pre n P T r2 w2 r w') end; try assumption.
    + unfold verified. rewrite SV, FM. reflexivity.
    + rewrite FM. exact H2.
    + intros t x D (u & v & -> & m & m' & -> & LC & LC' & RD). exists n. split; [exact D|]. rewrite FM. exists m, m'. split; [reflexivity|].
      split; [apply checked_app_r; exact LC|]. split; [apply checked_app_r; exact LC'|]. intros Y. apply did_app_r, RD, Y.
Qed.

(** ** Theorems *)

Lemma mb_run o b pre : mb_post o b pre (mounts o b pre) (after_mount o b pre).
Proof. apply mount_bundle_spec. unfold mounts, after_mount. destruct (mount_bundle o b pre start); reflexivity. Qed.

Lemma c61_failure_ok : forall o b pre e,
  mounts o b pre = Failed e -> releases_work o -> w_k (after_mount o b pre) = idle.
Proof. intros o b pre e E RW. pose proof (mb_run o b pre) as (_ & _ & H). rewrite E in H. exact (H RW). Qed.

Lemma c61_mounted_ok : forall o b pre,
  mounts o b pre = Mounted ->
  (0 < b_size b)%Z /\ (exists p p', holds b p p' (w_k (after_mount o b pre))) /\
  (releases_work o -> holds b true true (w_k (after_mount o b pre))).
Proof. intros o b pre E. pose proof (mb_run o b pre) as (_ & _ & H). rewrite E in H. tauto. Qed.

Lemma c61_unverified_ok : forall o b pre,
  b_verification_disabled b = false ->
  b_signature_verified b = false \/ (b_format b = Plain /\ b_payload_verified b = false) ->
  mounts o b pre <> Mounted /\ forall x f r, ~ In (KMount x f, r) (w_tr (after_mount o b pre)).
Proof.
  intros o b pre D V.
  assert (NV : verified b = false).
  { unfold verified. rewrite D. destruct V as [->|[-> ->]]; cbn; [reflexivity|apply andb_false_r]. }
  pose proof (mb_run o b pre) as (_ & [_ B] & H). split.
  - intros E. rewrite E, NV in H. destruct H as [H _]. discriminate.
  - intros x f r I0. apply in_split in I0. destruct I0 as (t1 & t2 & E).
    (* a mount means that the checks were passed: follow the run *)
    revert E. unfold after_mount, mount_bundle, start. clear B H. intros E.
    destruct (DmStack.bind (worked o KMkdir) _ {| w_k := idle; w_tr := [] |}) as [r0 w'] eqn:H.
    cbn [snd] in E. apply bind_inv in H. destruct H as (d & w0 & H0 & H). apply worked_inv in H0. destruct H0 as (r1 & -> & -> & A0).
    cbn [w_k w_tr app] in *. destruct (is_good r1) eqn:G; cbn [negb] in H.
    2:{ apply ret_inv in H. destruct H as [-> ->]. cbn [w_tr] in E.
        destruct t1 as [|? [|]]; cbn in E; discriminate. }
    destruct r1 as [v0| | |]; try discriminate.
    change (settle (effect idle KMkdir (Good v0))) with (base true) in H.
    destruct (b_signature_verified b || b_verification_disabled b) eqn:SV; cbn [negb] in H.
    2:{ apply ret_inv in H. destruct H as [-> ->]. cbn [w_tr] in E. destruct t1 as [|? [|]]; cbn in E; discriminate. }
    rewrite D, orb_false_r in SV. destruct V as [V|[V1 V2]]; [congruence|].
    apply bind_inv in H. destruct H as (l & w1 & H1 & H). apply setup_loop_spec in H1.
    destruct H1 as (t3 & T1 & F1 & M1 & P1). destruct w1 as [k1 h1]. cbn [w_k w_tr] in *. subst h1.
    assert (C : count is_mount (w_tr w') = 0).
    { destruct l as [n|e].
      - rewrite V1, V2, D in H. cbn [orb negb] in H. apply ret_inv in H. destruct H as [_ ->]. cbn [w_tr].
        rewrite ?count_app, count_cons, ?count_nil. cbn. exact M1.
      - raw_call H r2 A2. apply ret_inv in H. destruct H as [_ ->]. cbn [w_tr].
        rewrite !count_app, !count_cons, count_nil, M1. reflexivity. }
    rewrite E, count_app, count_cons in C. cbn in C. lia.
Qed.

Lemma c61_ready_ok : forall o b pre t1 x f r t2,
  w_tr (after_mount o b pre) = t1 ++ (KMount x f, r) :: t2 ->
  f = ["MS_NODEV"; "MS_NOSUID"; "MS_RDONLY"] /\ ready b pre t1 x /\ count is_mount t1 = 0 /\ count is_mount t2 = 0.
Proof.
  intros o b pre t1 x f r t2 E. pose proof (mb_run o b pre) as (_ & [C B] & _).
  destruct (B t1 x f r t2 E) as [-> R]. rewrite E, count_app, count_cons in C. cbn in C.
  split; [reflexivity|]. split; [exact R|]. lia.
Qed.

Lemma c61_tries_ok : forall o b pre, count is_free (w_tr (after_mount o b pre)) <= 10.
Proof. intros o b pre. apply (mb_run o b pre). Qed.

Lemma holds_umount o b s tr : holds b true true s -> releases_work o ->
  fst (umount_bundle o {| w_k := s; w_tr := tr |}) = true /\ w_k (snd (umount_bundle o {| w_k := s; w_tr := tr |})) = idle.
Proof.
  intros HO RW. destruct (umount_bundle o _) as [r w'] eqn:H. cbn [fst snd].
  destruct HO as [n HO].
  assert (NE : match k_mnts s with [] => false | _ => true end = true).
  { destruct (b_format b); [subst s; reflexivity|destruct HO as (m & bl & _ & _ & ->); reflexivity|
      destruct HO as (m & m' & bl & _ & _ & _ & ->); reflexivity]. }
  unfold umount_bundle in H. apply bind_inv in H. destruct H as (d & w0 & H0 & H).
  apply worked_inv in H0. destruct H0 as (r1 & -> & -> & A0). cbn [w_k w_tr] in *.
  unfold allowed in A0. cbn [feasible minor_ok w_k w_tr] in A0. rewrite NE in A0. cbn [andb] in A0.
  rewrite RW in A0 by reflexivity. subst r1. cbn [is_good negb] in H. raw_call H r2 A2. fin H. split; [reflexivity|].
  destruct (b_format b).
  - subst s. unfold loop_layer, mounted_on in *. sims. rewrite RW in A2 by reflexivity. subst r2. sims. reflexivity.
  - destruct HO as (m & bl & _ & _ & ->). unfold verity_layer, loop_layer, mounted_on in *. sims. rewrite RW in A2 by reflexivity. subst r2. sims. reflexivity.
  - destruct HO as (m & m' & bl & _ & _ & NM & ->). apply N.eqb_neq in NM. pose proof NM as NM'. rewrite N.eqb_sym in NM'.
    unfold crypt_layer, verity_layer, loop_layer, mounted_on in *. sims. rewrite RW in A2 by reflexivity. subst r2. sims. reflexivity.
Qed.

Lemma c61_umount_ok : forall o b pre,
  mounts o b pre = Mounted -> releases_work o ->
  fst (umount_bundle o (after_mount o b pre)) = true /\ w_k (snd (umount_bundle o (after_mount o b pre))) = idle.
Proof.
  intros o b pre E RW. destruct (c61_mounted_ok o b pre E) as (_ & _ & H). specialize (H RW).
  destruct (after_mount o b pre) as [s tr]. exact (holds_umount o b s tr H RW).
Qed.

Lemma holds_settled b p p' s : holds b p p' s -> settle s = s.
Proof.
  intros [n H]. destruct (b_format b).
  - subst s. unfold loop_layer, mounted_on. sims. reflexivity.
  - destruct H as (m & bl & _ & _ & ->). unfold verity_layer, loop_layer, mounted_on. destruct p; sims; reflexivity.
  - destruct H as (m & m' & bl & _ & _ & NM & ->). apply N.eqb_neq in NM. pose proof NM as NM'. rewrite N.eqb_sym in NM'.
    unfold crypt_layer, verity_layer, loop_layer, mounted_on. destruct p, p'; sims; reflexivity.
Qed.

Lemma c61_umount_failure_ok : forall o b pre,
  mounts o b pre = Mounted -> fst (umount_bundle o (after_mount o b pre)) = false ->
  w_k (snd (umount_bundle o (after_mount o b pre))) = w_k (after_mount o b pre).
Proof.
  intros o b pre E F. destruct (c61_mounted_ok o b pre E) as (_ & (p & p' & HO) & _).
  destruct (after_mount o b pre) as [s tr]. cbn [w_k] in *.
  destruct (umount_bundle o _) as [r w'] eqn:H. cbn [fst snd] in *. subst r.
  unfold umount_bundle in H. apply bind_inv in H. destruct H as (d & w0 & H0 & H).
  apply worked_inv in H0. destruct H0 as (r1 & -> & -> & A0). destruct (is_good r1) eqn:G; cbn [negb] in H.
  - raw_call H r2 A2. apply ret_inv in H. destruct H as [H _]. discriminate.
  - apply ret_inv in H. destruct H as [_ ->]. cbn [w_k]. destruct r1; try discriminate; cbn [effect]; eapply holds_settled; exact HO.
Qed.

(** when a failure comes without an error *)
Lemma dm_setup_err o q w w' : dm_setup o q w = (Fail false, w') -> r_size q = 0%N.
Proof.
  unfold dm_setup. destruct (r_size q =? 0)%N eqn:Z; [intros _; apply N.eqb_eq; exact Z|].
  destruct (negb (r_size q mod 4096 =? 0)%N). { intros H. apply ret_inv in H. destruct H. discriminate. }
  intros H. apply bind_inv in H. destruct H as (c & w1 & _ & H). destruct c; cbn [negb] in H.
  2:{ apply ret_inv in H. destruct H. discriminate. }
  assert (U : forall c w w', setup_undo o (r_kind q) c w = (Fail false, w') -> False).
  { intros c w2 w2' X. unfold setup_undo in X. apply bind_inv in X. destruct X as (? & ? & _ & X).
    raw_call X a A. raw_call X a' A'. apply ret_inv in X. destruct X. discriminate. }
  raw_call H r A. destruct r as [m| | |].
  2,3,4: (raw_call H r' A'; apply ret_inv in H; destruct H; discriminate).
  destruct (Nat.leb _ _); [destruct (U _ _ _ H)|].
  do 4 (apply bind_inv in H; destruct H as (? & ? & _ & H);
        match type of H with (if negb ?c then _ else _) _ = _ => destruct c; cbn [negb] in H; [|destruct (U _ _ _ H)] end).
  raw_call H r7 A7. destruct (negb _); [destruct (U _ _ _ H)|].
  raw_call H r8 A8. raw_call H r9 A9. apply ret_inv in H. destruct H. discriminate.
Qed.

Lemma error_cases o b pre : mounts o b pre = Failed false -> (b_size b <= 0)%Z \/ data_size b = 0%N.
Proof.
  intros E. unfold mounts in E. destruct (mount_bundle o b pre start) as [r w'] eqn:H. cbn [fst] in E. subst r.
  unfold mount_bundle in H. apply bind_inv in H. destruct H as (d & w0 & _ & H). destruct d; cbn [negb] in H.
  2:{ apply ret_inv in H. destruct H. discriminate. }
  destruct (negb _). { apply ret_inv in H. destruct H. discriminate. }
  apply bind_inv in H. destruct H as (l & w1 & HL & H). destruct l as [n|e].
  - right.
    assert (X : exists r0 w2 w3, finish o n r0 w2 = (Failed false, w3) /\
       (r0 = Fail false -> data_size b = 0%N)).
    { destruct (b_format b).
      - destruct (negb _). { apply ret_inv in H. destruct H. discriminate. }
        apply bind_inv in H. destruct H as (r0 & w2 & HP & H). exists r0, w2, w'. split; [exact H|]. intros ->.
        exfalso. unfold mount_plain in HP. apply bind_inv in HP. destruct HP as (mo & w3 & _ & HP). destruct mo; cbn [negb] in HP.
        2:{ apply ret_inv in HP. destruct HP. discriminate. }
        apply bind_inv in HP. destruct HP as (ma & w4 & _ & HP). destruct ma. { apply ret_inv in HP. destruct HP. discriminate. }
        raw_call HP x A. apply ret_inv in HP. destruct HP. discriminate.
      - apply bind_inv in H. destruct H as (r0 & w2 & HP & H). exists r0, w2, w'. split; [exact H|]. intros ->.
        unfold prepare_verity in HP. destruct (negb _). { apply ret_inv in HP. destruct HP. discriminate. }
        apply bind_inv in HP. destruct HP as (v & w3 & HS & HP). destruct v as [m|e].
        + exfalso. apply bind_inv in HP. destruct HP as (c & w4 & _ & HP). destruct c; cbn [negb] in HP.
          * apply bind_inv in HP. destruct HP as (mo & w5 & _ & HP). apply bind_inv in HP. destruct HP as (u & w6 & _ & HP).
            destruct mo; apply ret_inv in HP; destruct HP; discriminate.
          * apply bind_inv in HP. destruct HP as (u & w6 & _ & HP). apply ret_inv in HP; destruct HP; discriminate.
        + apply ret_inv in HP. destruct HP as [HE _]. injection HE as <-. apply dm_setup_err in HS. exact HS.
      - apply bind_inv in H. destruct H as (r0 & w2 & HP & H). exists r0, w2, w'. split; [exact H|]. intros ->.
        unfold prepare_crypt in HP. destruct (negb _). { apply ret_inv in HP. destruct HP. discriminate. }
        apply bind_inv in HP. destruct HP as (v & w3 & HS & HP). destruct v as [m|e].
        + apply bind_inv in HP. destruct HP as (v' & w3' & HS' & HP). destruct v' as [m'|e'].
          * exfalso. apply bind_inv in HP. destruct HP as (c & w4 & _ & HP). destruct c; cbn [negb] in HP.
            -- apply bind_inv in HP. destruct HP as (mo & w5 & _ & HP). apply bind_inv in HP. destruct HP as (u & w6 & _ & HP).
               apply bind_inv in HP. destruct HP as (u7 & w7 & _ & HP).
               destruct mo; apply ret_inv in HP; destruct HP; discriminate.
            -- apply bind_inv in HP. destruct HP as (u & w6 & _ & HP). apply bind_inv in HP. destruct HP as (u7 & w7 & _ & HP).
               apply ret_inv in HP; destruct HP; discriminate.
          * apply bind_inv in HP. destruct HP as (u & w6 & _ & HP).
            apply ret_inv in HP. destruct HP as [HE _]. injection HE as <-. apply dm_setup_err in HS'. exact HS'.
        + apply ret_inv in HP. destruct HP as [HE _]. injection HE as <-. apply dm_setup_err in HS. exact HS. }
    destruct X as (r0 & w2 & w3 & HF & Z). apply Z. unfold finish in HF. destruct r0 as [[]|e].
    + raw_call HF x A. apply ret_inv in HF. destruct HF. discriminate.
    + raw_call HF x A. raw_call HF y A'. apply ret_inv in HF. destruct HF as [HE _]. injection HE as <-. reflexivity.
  - raw_call H x A. apply ret_inv in H. destruct H as [HE _]. injection HE as <-. left.
    unfold setup_loop in HL. destruct (b_size b <=? 0)%Z eqn:SZ; [lia|]. exfalso.
    apply bind_inv in HL. destruct HL as (c & w2 & _ & HL). destruct c; cbn [negb] in HL.
    2:{ apply ret_inv in HL. destruct HL. discriminate. }
    apply bind_inv in HL. destruct HL as (n & w3 & _ & HL). destruct n.
    2:{ raw_call HL y A'. apply ret_inv in HL. destruct HL. discriminate. }
    apply bind_inv in HL. destruct HL as (c & w4 & _ & HL). destruct c; cbn [negb] in HL.
    + raw_call HL y1 A1. raw_call HL y2 A2. apply ret_inv in HL. destruct HL. discriminate.
    + raw_call HL y1 A1. raw_call HL y2 A2. raw_call HL y3 A3. apply ret_inv in HL. destruct HL. discriminate.
Qed.

Lemma c61_error_ok : forall o b pre,
  (0 < b_size b < 2 ^ 63)%Z -> (b_verity_size b < 2 ^ 64)%N ->
  mounts o b pre = Failed false -> b_size b = Z.of_N (b_verity_size b).
Proof.
  intros o b pre SZ VZ E. apply error_cases in E. destruct E as [E|E]; [lia|]. unfold data_size in E.
  assert (X : ((b_size b - Z.of_N (b_verity_size b)) mod 2 ^ 64 = 0)%Z).
  { pose proof (Z.mod_pos_bound (b_size b - Z.of_N (b_verity_size b)) (2 ^ 64) ltac:(reflexivity)). lia. }
  apply Z.mod_divide in X; [|discriminate]. destruct X as [q X].
  assert (VZ' : (Z.of_N (b_verity_size b) < 2 ^ 64)%Z) by lia. clear - X SZ VZ'.
  change (2 ^ 64)%Z with 18446744073709551616%Z in *. change (2 ^ 63)%Z with 9223372036854775808%Z in *. lia.
Qed.

(** everything works *)
Definition all_good (h : hist) (a : kact) : ans :=
  match a with
  | KDmStatus Verity => Said "V"
  | KDmStatus Crypt => Said ""
  | KDmCreate Verity => Good 3
  | KDmCreate Crypt => Good 4
  | KLoopFree => Good 7
  | _ => Good 0
  end.
Definition ex_bundle (f : format) (vs : N) : bundle :=
  {| b_size := 12288; b_signature_verified := true; b_payload_verified := true; b_verification_disabled := false;
     b_format := f; b_external := true; b_verity_size := vs; b_hash := "abcd"; b_salt := "ef01"; b_key := "0123" |}.

Lemma c61_error_always_refuted :
  ~ (forall o b pre e, mounts o b pre = Failed e -> e = true).
Proof. intros H. specialize (H all_good (ex_bundle FVerity 12288) false false eq_refl). discriminate. Qed.
