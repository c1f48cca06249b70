(** Proofs for C61: the layers of a bundle together. *)
From Verif Require Import Base BaseLemmas DmStack DmStackSpec DmStackProofs.

Definition vdm (m : N) (tb : table) (p : bool) : dmst :=
  {| d_kind := Verity; d_minor := m; d_table := Some tb; d_active := true; d_pending := p |}.
Definition cdm (m : N) (tb : table) (p : bool) : dmst :=
  {| d_kind := Crypt; d_minor := m; d_table := Some tb; d_active := true; d_pending := p |}.
Definition kstate (n : N) (size : Z) (D : list dmst) (mn : list mnt) : kst :=
  {| k_loops := [loop_layer n size]; k_fds := [FLoop n]; k_dms := D; k_mnts := mn; k_dir := true |}.

Definition rem_post (o : hist -> kact -> ans) (w w' : world) (post : bool -> kst -> Prop) : Prop :=
  exists t, w_tr w' = w_tr w ++ t /\ count is_free t = 0 /\ count is_mount t = 0 /\
  (exists p, post p (w_k w')) /\ (releases_work o -> post true (w_k w')).

Ltac rem_script H :=
  unfold dm_remove in H;
  let r := fresh "r" in let A := fresh "A" in
  apply bind_inv in H; let b := fresh "b" in let w := fresh "w" in let C := fresh "C" in
  destruct H as (b & w & C & H); apply worked_inv in C; destruct C as (r & -> & -> & A);
  destruct r as [?|?| |]; sims;
  [ let r2 := fresh "r" in let A2 := fresh "A" in raw_call H r2 A2; destruct r2 as [?|?| |]; sims;
    let r3 := fresh "r" in step_call H r3; fin H
  | fin H .. ].
Ltac bad_release := let RW := fresh "RW" in intros RW; exfalso;
  match goal with A : _ = _ |- _ => rewrite RW in A by reflexivity; discriminate A end.

(** marking a mounted verity device *)
Lemma rem_verity_mounted o n size m tb tr u w' : t_lower tb = DLoop n ->
  dm_remove o Verity true {| w_k := kstate n size [vdm m tb false] [mounted_on (DDm m)]; w_tr := tr |} = (u, w') ->
  rem_post o {| w_k := kstate n size [vdm m tb false] [mounted_on (DDm m)]; w_tr := tr |} w'
    (fun p s => s = kstate n size [vdm m tb p] [mounted_on (DDm m)]).
Proof.
  intros L H. destruct tb as [ts tp tl tro]. cbn [t_lower] in L. subst tl.
  unfold rem_post, kstate, vdm, mounted_on, loop_layer in *.
  rem_script H; tr_split; (split; [first [exists true; reflexivity|exists false; reflexivity]|first [reflexivity|intros _; reflexivity|bad_release]]).
Qed.

(** a verity device nothing uses *)
Lemma rem_verity_unused o df n size m tb tr u w' : t_lower tb = DLoop n ->
  dm_remove o Verity df {| w_k := kstate n size [vdm m tb false] []; w_tr := tr |} = (u, w') ->
  rem_post o {| w_k := kstate n size [vdm m tb false] []; w_tr := tr |} w'
    (fun p s => p = true -> s = kstate n size [] []).
Proof.
  intros L H. destruct tb as [ts tp tl tro]. cbn [t_lower] in L. subst tl.
  unfold rem_post, kstate, vdm, mounted_on, loop_layer in *.
  destruct df; rem_script H; tr_split; (split; [exists false; discriminate|first [intros _ _; reflexivity|bad_release]]).
Qed.

Lemma rem_crypt_mounted o n size m m' tb tb' tr u w' : t_lower tb = DLoop n -> t_lower tb' = DDm m -> m <> m' ->
  dm_remove o Crypt true {| w_k := kstate n size [cdm m' tb' false; vdm m tb false] [mounted_on (DDm m')]; w_tr := tr |} = (u, w') ->
  rem_post o {| w_k := kstate n size [cdm m' tb' false; vdm m tb false] [mounted_on (DDm m')]; w_tr := tr |} w'
    (fun p s => s = kstate n size [cdm m' tb' p; vdm m tb false] [mounted_on (DDm m')]).
Proof.
  intros L L' NE H. destruct tb as [ts tp tl tro], tb' as [ts' tp' tl' tro']. cbn [t_lower] in L, L'. subst tl tl'.
  apply N.eqb_neq in NE. pose proof NE as NE'. rewrite N.eqb_sym in NE'.
  unfold rem_post, kstate, vdm, cdm, mounted_on, loop_layer in *.
  rem_script H; tr_split; (split; [first [exists true; reflexivity|exists false; reflexivity]|first [reflexivity|intros _; reflexivity|bad_release]]).
Qed.

Lemma rem_verity_below o n size m m' tb tb' p' tr u w' : t_lower tb = DLoop n -> t_lower tb' = DDm m -> m <> m' ->
  dm_remove o Verity true {| w_k := kstate n size [cdm m' tb' p'; vdm m tb false] [mounted_on (DDm m')]; w_tr := tr |} = (u, w') ->
  rem_post o {| w_k := kstate n size [cdm m' tb' p'; vdm m tb false] [mounted_on (DDm m')]; w_tr := tr |} w'
    (fun p s => s = kstate n size [cdm m' tb' p'; vdm m tb p] [mounted_on (DDm m')]).
Proof.
  intros L L' NE H. destruct tb as [ts tp tl tro], tb' as [ts' tp' tl' tro']. cbn [t_lower] in L, L'. subst tl tl'.
  apply N.eqb_neq in NE. pose proof NE as NE'. rewrite N.eqb_sym in NE'.
  unfold rem_post, kstate, vdm, cdm, mounted_on, loop_layer in *. destruct p';
  rem_script H; tr_split; (split; [first [exists true; reflexivity|exists false; reflexivity]|first [reflexivity|intros _; reflexivity|bad_release]]).
Qed.

Lemma rem_crypt_unused o n size m m' tb tb' tr u w' : t_lower tb = DLoop n -> t_lower tb' = DDm m -> m <> m' ->
  dm_remove o Crypt true {| w_k := kstate n size [cdm m' tb' false; vdm m tb false] []; w_tr := tr |} = (u, w') ->
  rem_post o {| w_k := kstate n size [cdm m' tb' false; vdm m tb false] []; w_tr := tr |} w'
    (fun p s => if p then s = kstate n size [vdm m tb false] [] else True).
Proof.
  intros L L' NE H. destruct tb as [ts tp tl tro], tb' as [ts' tp' tl' tro']. cbn [t_lower] in L, L'. subst tl tl'.
  apply N.eqb_neq in NE. pose proof NE as NE'. rewrite N.eqb_sym in NE'.
  unfold rem_post, kstate, vdm, cdm, mounted_on, loop_layer in *.
  rem_script H; tr_split; (split; [exists false; exact I|first [intros _; reflexivity|bad_release]]).
Qed.

Lemma rem_trace o k df w u w' : dm_remove o k df w = (u, w') ->
  exists t, w_tr w' = w_tr w ++ t /\ count is_free t = 0 /\ count is_mount t = 0.
Proof.
  intros H. unfold dm_remove in H. apply bind_inv in H. destruct H as (b & w1 & C & H).
  apply worked_inv in C. destruct C as (r & -> & -> & _). destruct (is_good r) eqn:G; cbn [negb] in H.
  - raw_call H r1 A1. raw_call H r2 A2. apply ret_inv in H. destruct H as [_ ->]. cbn [w_tr].
    eexists [_; _; _]. split; [trace|]. split; reflexivity.
  - apply ret_inv in H. destruct H as [_ ->]. cbn [w_tr]. eexists [_]. split; [trace|]. split; reflexivity.
Qed.

Lemma blocks_of b : data_size b <> 0%N -> (data_size b mod 4096 = 0)%N ->
  data_size b = (4096 * (data_size b / 4096))%N /\ (0 < data_size b / 4096)%N /\
  (data_size b / 512 = 8 * (data_size b / 4096))%N.
Proof.
  generalize (data_size b). intros s Z M4. pose proof (N.div_mod s 4096 ltac:(discriminate)) as E.
  rewrite M4, N.add_0_r in E. split; [exact E|]. remember (s / 4096)%N as k. clear Heqk M4. subst s.
  split; [lia|]. replace (4096 * k)%N with (8 * k * 512)%N by lia. apply N.div_mul. discriminate.
Qed.

(** the optional pass over the whole device *)
Lemma effect_read s d r : effect s (KReadAll d) r = s.
Proof. destruct r; reflexivity. Qed.

Lemma pre_inv o (pre : bool) d w c w' : settle (w_k w) = w_k w ->
  (if pre then worked o (KReadAll d) else ret true) w = (c, w') ->
  exists t, w_tr w' = w_tr w ++ t /\ w_k w' = w_k w /\ count is_free t = 0 /\ count is_mount t = 0 /\
    (c = true -> pre = true -> did t (KReadAll d)).
Proof.
  intros ST H. destruct pre.
  - apply worked_inv in H. destruct H as (r & -> & -> & _). rewrite effect_read. cbn [w_k w_tr].
    eexists [_]. split; [reflexivity|]. split; [exact ST|]. split; [reflexivity|]. split; [reflexivity|].
    intros G _. destruct r; try discriminate. eexists. left. reflexivity.
  - apply ret_inv in H. destruct H as [-> ->]. exists []. rewrite app_nil_r. repeat (split; [reflexivity|]). discriminate.
Qed.

Lemma prepare_verity_spec o b pre n tr r w' :
  prepare_verity o b pre n {| w_k := with_dms n (b_size b) []; w_tr := tr |} = (r, w') ->
  prep_post o n (b_size b) (st_verity b n)
    (fun t x => exists m, x = DDm m /\ layer_checked t Verity m /\ (pre = true -> did t (KReadAll x))) tr r w'.
Proof.
  unfold prepare_verity, prep_post. intros H. destruct (b_external b); cbn [negb] in H.
  2:{ fin H. exists []. rewrite app_nil_r. split; [reflexivity|]. split; [reflexivity|].
      split; [apply before_none; reflexivity|]. intros _. reflexivity. }
  apply bind_inv in H. destruct H as (v & w1 & H1 & H). apply dm_setup_verity in H1.
  destruct H1 as (t1 & T1 & F1 & M1 & P1). destruct w1 as [k1 h1]. cbn [w_k w_tr] in *. subst h1.
  destruct v as [m|e].
  2:{ apply ret_inv in H. destruct H as [-> ->]. exists t1. split; [reflexivity|]. split; [exact F1|].
      split; [apply before_none; exact M1|exact P1]. }
  destruct P1 as (-> & Z0 & Z4 & _ & LC & _). cbn [r_size verity_req r_kind] in *.
  destruct (blocks_of b Z0 Z4) as (SZ & BP & SEC).
  unfold new_dm in H. cbn [r_kind r_size r_lower] in H. rewrite params_verity, SEC in H.
  set (blocks := (data_size b / 4096)%N) in *.
  set (tb := {| t_sectors := 8 * blocks; t_params := verity_line (loop_name n) blocks (b_hash b) (b_salt b);
                t_lower := DLoop n; t_ro := true |}) in *.
  change (with_dms n (b_size b) _) with (kstate n (b_size b) [vdm m tb false] []) in H.
  apply bind_inv in H. destruct H as (c & w2 & H2 & H). apply pre_inv in H2.
  2:{ unfold tb, vdm, kstate, loop_layer; sims; reflexivity. }
  destruct H2 as (t2 & T2 & K2 & F2 & M2 & DR). destruct w2 as [k2 h2]. cbn [w_k w_tr] in *. subst k2 h2.
  destruct c; cbn [negb] in H.
  2:{ apply bind_inv in H. destruct H as (u & w3 & H3 & H). apply rem_verity_unused in H3; [|reflexivity].
      destruct H3 as (t3 & T3 & F3 & M3 & _ & RL). cbn [w_tr] in T3. apply ret_inv in H. destruct H as [-> ->].
      exists (t1 ++ t2 ++ t3). rewrite T3, <- !app_assoc. split; [reflexivity|]. rewrite !count_app, F1, F2, F3.
      split; [reflexivity|]. split; [apply before_none; rewrite !count_app, M1, M2, M3; reflexivity|].
      intros RW. apply RL; [exact RW|reflexivity]. }
  apply bind_inv in H. destruct H as (mo & w3 & H3 & H). apply worked_inv in H3. destruct H3 as (r3 & -> & -> & A3).
  assert (FR : (fun t x => exists m, x = DDm m /\ layer_checked t Verity m /\ (pre = true -> did t (KReadAll x))) (t1 ++ t2) (DDm m)).
  { exists m. split; [reflexivity|]. split; [apply checked_app_l; exact LC|]. intros PR. apply did_app_r, DR; auto. }
  destruct (is_good r3) eqn:G.
  - destruct r3 as [v3| | |]; try discriminate.
    assert (ST : settle (effect (kstate n (b_size b) [vdm m tb false] []) (KMount (DDm m) mount_flags) (Good v3)) =
                 kstate n (b_size b) [vdm m tb false] [mounted_on (DDm m)]).
    { unfold tb, vdm, kstate, loop_layer; sims; reflexivity. }
    cbn [w_k w_tr] in H. rewrite ST in H.
    apply bind_inv in H. destruct H as (u & w4 & H4 & H). apply rem_verity_mounted in H4; [|reflexivity].
    destruct H4 as (t4 & T4 & F4 & M4 & EX & RL). cbn [w_tr] in T4. apply ret_inv in H. destruct H as [-> ->].
    exists ((t1 ++ t2) ++ (KMount (DDm m) mount_flags, Good v3) :: t4).
    split; [rewrite T4, <- !app_assoc; reflexivity|].
    split; [rewrite !count_app, count_cons, F1, F2, F4; reflexivity|].
    split; [apply before_one; [rewrite count_app, M1, M2; reflexivity|exact M4|exact FR]|].
    split.
    + destruct EX as [p ->]. exists p, true, m, blocks. split; [exact SZ|]. split; [exact BP|]. reflexivity.
    + intros RW. rewrite (RL RW). exists m, blocks. split; [exact SZ|]. split; [exact BP|]. reflexivity.
  - assert (ST : settle (effect (kstate n (b_size b) [vdm m tb false] []) (KMount (DDm m) mount_flags) r3) =
                 kstate n (b_size b) [vdm m tb false] []).
    { destruct r3; try discriminate; unfold tb, vdm, kstate, loop_layer; sims; reflexivity. }
    cbn [w_k w_tr] in H. rewrite ST in H.
    apply bind_inv in H. destruct H as (u & w4 & H4 & H). apply rem_verity_unused in H4; [|reflexivity].
    destruct H4 as (t4 & T4 & F4 & M4 & _ & RL). cbn [w_tr] in T4. apply ret_inv in H. destruct H as [-> ->].
    exists ((t1 ++ t2) ++ (KMount (DDm m) mount_flags, r3) :: t4).
    split; [rewrite T4, <- !app_assoc; reflexivity|].
    split; [rewrite !count_app, count_cons, F1, F2, F4; reflexivity|].
    split; [apply before_one; [rewrite count_app, M1, M2; reflexivity|exact M4|exact FR]|].
    intros RW. apply RL; [exact RW|reflexivity].
Qed.

Lemma prepare_crypt_spec o b pre n tr r w' :
  prepare_crypt o b pre n {| w_k := with_dms n (b_size b) []; w_tr := tr |} = (r, w') ->
  prep_post o n (b_size b) (st_crypt b n)
    (fun t x => exists m m', x = DDm m' /\ layer_checked t Verity m /\ layer_checked t Crypt m' /\ (pre = true -> did t (KReadAll x))) tr r w'.
Proof.
  unfold prepare_crypt, prep_post. intros H. destruct (b_external b); cbn [negb] in H.
  2:{ fin H. exists []. rewrite app_nil_r. split; [reflexivity|]. split; [reflexivity|].
      split; [apply before_none; reflexivity|]. intros _. reflexivity. }
  apply bind_inv in H. destruct H as (v & w1 & H1 & H). apply dm_setup_verity in H1.
  destruct H1 as (t1 & T1 & F1 & M1 & P1). destruct w1 as [k1 h1]. cbn [w_k w_tr] in *. subst h1.
  destruct v as [m|e].
  2:{ apply ret_inv in H. destruct H as [-> ->]. exists t1. split; [reflexivity|]. split; [exact F1|].
      split; [apply before_none; exact M1|exact P1]. }
  destruct P1 as (-> & Z0 & Z4 & _ & LC & _). cbn [r_size verity_req r_kind] in *.
  destruct (blocks_of b Z0 Z4) as (SZ & BP & SEC).
  unfold new_dm in H. cbn [r_kind r_size r_lower] in H. rewrite params_verity, SEC in H.
  set (blocks := (data_size b / 4096)%N) in *.
  set (tb := {| t_sectors := 8 * blocks; t_params := verity_line (loop_name n) blocks (b_hash b) (b_salt b);
                t_lower := DLoop n; t_ro := true |}) in *.
  apply bind_inv in H. destruct H as (y & w2 & H2 & H). apply dm_setup_crypt in H2; [|reflexivity].
  destruct H2 as (t2 & T2 & F2 & M2 & P2). destruct w2 as [k2 h2]. cbn [w_k w_tr] in *. subst h2.
  destruct y as [m'|e].
  2:{ apply bind_inv in H. destruct H as (u & w3 & H3 & H). apply ret_inv in H. destruct H as [-> ->].
      pose proof H3 as H3'. apply rem_trace in H3. destruct H3 as (t3 & T3 & F3 & M3). cbn [w_tr] in T3.
      exists (t1 ++ t2 ++ t3). rewrite T3, <- !app_assoc. split; [reflexivity|]. rewrite !count_app, F1, F2, F3.
      split; [reflexivity|]. split; [apply before_none; rewrite !count_app, M1, M2, M3; reflexivity|].
      intros RW. rewrite (P2 RW) in H3'. apply rem_verity_unused in H3'; [|reflexivity].
      destruct H3' as (t3' & _ & _ & _ & _ & RL). apply RL; [exact RW|reflexivity]. }
  destruct P2 as (-> & _ & _ & _ & LC' & NE). cbn [r_size crypt_req r_kind] in *.
  assert (NM : m <> m') by (apply (NE (vdm m tb false)); left; reflexivity). clear NE.
  unfold new_dm in H. cbn [r_kind r_size r_lower] in H. rewrite params_crypt, SEC in H.
  set (tb' := {| t_sectors := 8 * blocks; t_params := crypt_line (b_key b) (dm_name m); t_lower := DDm m; t_ro := true |}) in *.
  change (with_dms n (b_size b) _) with (kstate n (b_size b) [cdm m' tb' false; vdm m tb false] []) in H.
  apply bind_inv in H. destruct H as (c & w3 & H3 & H). apply pre_inv in H3.
  2:{ unfold tb, vdm, kstate, loop_layer; sims; reflexivity. }
  destruct H3 as (t3 & T3 & K3 & F3 & M3 & DR). destruct w3 as [k3 h3]. cbn [w_k w_tr] in *. subst k3 h3.
  destruct c; cbn [negb] in H.
  2:{ apply bind_inv in H. destruct H as (u & w4 & H4 & H). apply bind_inv in H. destruct H as (u' & w5 & H5 & H).
      apply ret_inv in H. destruct H as [-> ->].
      apply rem_crypt_unused in H4; [|reflexivity|reflexivity|exact NM].
      destruct H4 as (t4 & T4 & F4 & M4 & _ & RL). cbn [w_tr] in T4.
      pose proof H5 as H5'. apply rem_trace in H5. destruct H5 as (t5 & T5 & F5 & M5). rewrite T4 in T5.
      exists (t1 ++ t2 ++ t3 ++ t4 ++ t5). rewrite T5, <- !app_assoc. split; [reflexivity|].
      rewrite !count_app, F1, F2, F3, F4, F5.
      split; [reflexivity|]. split; [apply before_none; rewrite !count_app, M1, M2, M3, M4, M5; reflexivity|].
      intros RW. specialize (RL RW). destruct w4 as [k4 h4]. cbn [w_k] in RL. subst k4.
      apply rem_verity_unused in H5'; [|reflexivity]. destruct H5' as (t' & _ & _ & _ & _ & RL). apply RL; [exact RW|reflexivity]. }
  apply bind_inv in H. destruct H as (mo & w4 & H4 & H). apply worked_inv in H4. destruct H4 as (r4 & -> & -> & A4).
  assert (FR : (fun t x => exists m m', x = DDm m' /\ layer_checked t Verity m /\ layer_checked t Crypt m' /\ (pre = true -> did t (KReadAll x)))
                 ((t1 ++ t2) ++ t3) (DDm m')).
  { exists m, m'. split; [reflexivity|]. split; [apply checked_app_l, checked_app_l; exact LC|].
    split; [apply checked_app_l, checked_app_r; exact LC'|]. intros PR. apply did_app_r, DR; auto. }
  pose proof (proj2 (N.eqb_neq m m') NM) as NE. pose proof NE as NE'. rewrite N.eqb_sym in NE'.
  destruct (is_good r4) eqn:G.
  - destruct r4 as [v4| | |]; try discriminate.
    assert (ST : settle (effect (kstate n (b_size b) [cdm m' tb' false; vdm m tb false] []) (KMount (DDm m') mount_flags) (Good v4)) =
                 kstate n (b_size b) [cdm m' tb' false; vdm m tb false] [mounted_on (DDm m')]).
    { unfold tb, tb', cdm, vdm, kstate, loop_layer; sims; reflexivity. }
    cbn [w_k w_tr] in H. rewrite ST in H.
    apply bind_inv in H. destruct H as (u & w5 & H5 & H). apply rem_crypt_mounted in H5; [|reflexivity|reflexivity|exact NM].
    destruct H5 as (t5 & T5 & F5 & M5 & EX5 & RL5). cbn [w_tr] in T5. destruct w5 as [k5 h5]. cbn [w_tr w_k] in *. subst h5.
    destruct EX5 as [p' ->].
    apply bind_inv in H. destruct H as (u6 & w6 & H6 & H). apply rem_verity_below in H6; [|reflexivity|reflexivity|exact NM].
    destruct H6 as (t6 & T6 & F6 & M6 & EX6 & RL6). cbn [w_tr] in T6. apply ret_inv in H. destruct H as [-> ->].
    exists (((t1 ++ t2) ++ t3) ++ (KMount (DDm m') mount_flags, Good v4) :: t5 ++ t6).
    split; [rewrite T6, <- !app_assoc; reflexivity|].
    split; [rewrite !count_app, count_cons, count_app, F1, F2, F3, F5, F6; reflexivity|].
    split; [apply before_one; [rewrite !count_app, M1, M2, M3; reflexivity|rewrite count_app, M5, M6; reflexivity|exact FR]|].
    split.
    + destruct EX6 as [p ->]. exists p, p', m, m', blocks. split; [exact SZ|]. split; [exact BP|]. split; [exact NM|reflexivity].
    + intros RW. rewrite (RL6 RW). specialize (RL5 RW). injection RL5 as ->.
      exists m, m', blocks. split; [exact SZ|]. split; [exact BP|]. split; [exact NM|reflexivity].
  - assert (ST : settle (effect (kstate n (b_size b) [cdm m' tb' false; vdm m tb false] []) (KMount (DDm m') mount_flags) r4) =
                 kstate n (b_size b) [cdm m' tb' false; vdm m tb false] []).
    { destruct r4; try discriminate; unfold tb, tb', cdm, vdm, kstate, loop_layer; sims; reflexivity. }
    cbn [w_k w_tr] in H. rewrite ST in H.
    apply bind_inv in H. destruct H as (u & w5 & H5 & H). apply bind_inv in H. destruct H as (u6 & w6 & H6 & H).
    apply ret_inv in H. destruct H as [-> ->].
    apply rem_crypt_unused in H5; [|reflexivity|reflexivity|exact NM].
    destruct H5 as (t5 & T5 & F5 & M5 & _ & RL). cbn [w_tr] in T5.
    pose proof H6 as H6'. apply rem_trace in H6. destruct H6 as (t6 & T6 & F6 & M6). rewrite T5 in T6.
    exists (((t1 ++ t2) ++ t3) ++ (KMount (DDm m') mount_flags, r4) :: t5 ++ t6).
    split; [rewrite T6, <- !app_assoc; reflexivity|].
    split; [rewrite !count_app, count_cons, count_app, F1, F2, F3, F5, F6; reflexivity|].
    split; [apply before_one; [rewrite !count_app, M1, M2, M3; reflexivity|rewrite count_app, M5, M6; reflexivity|exact FR]|].
    intros RW. specialize (RL RW). destruct w5 as [k5 h5]. cbn [w_k] in RL. subst k5.
    apply rem_verity_unused in H6'; [|reflexivity]. destruct H6' as (t' & _ & _ & _ & _ & RL). apply RL; [exact RW|reflexivity].
Qed.
