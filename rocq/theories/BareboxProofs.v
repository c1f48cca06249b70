From Verif Require Import Base BaseLemmas Slot UbootProofs Barebox BareboxSpec.

Lemma prio_key_inj a b : prio_key a = prio_key b -> a = b.
Proof. unfold prio_key. intros H. apply app_inv_l in H. now apply app_inv_r in H. Qed.
Lemma att_key_inj a b : att_key a = att_key b -> a = b.
Proof. unfold att_key. intros H. apply app_inv_l in H. now apply app_inv_r in H. Qed.

(** last character of a string *)
Fixpoint last_char (s : string) (d : ascii) : ascii :=
  match s with EmptyString => d | String a r => last_char r a end.
Lemma last_char_app a b d : b <> "" -> last_char (a ++ b) d = last_char b d.
Proof.
  revert d; induction a as [|x a IH]; intros d Hb; [reflexivity|].
  cbn. rewrite IH by assumption. destruct b; [congruence|reflexivity].
Qed.

Lemma prio_att_neq a b : prio_key a <> att_key b.
Proof.
  unfold prio_key, att_key. intros H.
  apply (f_equal (fun s => last_char s " ")) in H.
  rewrite <- !app_assoc_s in H. rewrite !last_char_app in H by discriminate. discriminate.
Qed.

Lemma conv10_print n : conv10 (print_num 10 n) = true.
Proof.
  pose proof (print_num_chars 10 n ltac:(lia)) as H. unfold conv10.
  destruct (print_num 10 n) as [|c s] eqn:E; [now destruct (print_num_nonempty 10 n)|].
  cbn [all_chars] in H. apply andb_true_iff in H as [H _].
  destruct (is_digit_not_special 10 c H) as (Hs & Hm & Hp & _). cbn [skip_space]. rewrite Hs, Hm, Hp.
  cbn [orb]. exact H.
Qed.

Lemma print_no_nl n : no_char bnl (print_num 10 n) = true.
Proof.
  pose proof (print_num_clean 10 n ltac:(lia)) as H. apply clean_word_spec in H as [_ H]. revert H.
  apply all_chars_impl. intros c Hc. destruct (Ascii.eqb_spec c bnl); [subst; discriminate|reflexivity].
Qed.

Lemma parse_line_print n : (n < 2 ^ 32)%N -> bb_parse_line (Some (print_num 10 n)) = Ok n.
Proof.
  intros Hn. assert (Hlt : (n < 2 ^ 64 - 1)%N).
  { eapply N.lt_trans; [exact Hn|]. reflexivity. }
  unfold bb_parse_line. rewrite strtoull_print; [|now left|].
  2:{ eapply N.lt_trans; [exact Hn|]. reflexivity. }
  rewrite conv10_print, andb_false_r.
  destruct (N.eqb_spec n ullong_max) as [->|_]; [|reflexivity].
  exfalso. unfold ullong_max in Hlt. now apply N.lt_irrefl in Hlt.
Qed.

Lemma state_get_spec st b : bb_wf st ->
  barebox_state_get st b =
  match st (prio_key b), st (att_key b) with
  | Some p, Some a => Ok (mkBB p a)
  | _, _ => Err
  end.
Proof.
  intros Hwf. unfold barebox_state_get, bb_print.
  destruct (st (prio_key b)) as [p|] eqn:Ep; [|reflexivity].
  destruct (st (att_key b)) as [a|] eqn:Ea; [|reflexivity].
  apply Hwf in Ep, Ea. cbv zeta.
  assert (Hs : g_strsplit bnl (print_num 10 p ++ String bnl (print_num 10 a ++ String bnl ""))
               = [print_num 10 p; print_num 10 a; ""]).
  { unfold g_strsplit. destruct (print_num 10 p) as [|c s] eqn:E; [now destruct (print_num_nonempty 10 p)|].
    cbn [append]. change (String c (s ++ String bnl (print_num 10 a ++ String bnl "")))%string
      with (String c s ++ String bnl (print_num 10 a ++ String bnl ""))%string. rewrite <- E.
    rewrite !split_on_cons by apply print_no_nl. reflexivity. }
  rewrite Hs. cbn [nth_error]. rewrite !parse_line_print by assumption. cbn [bind].
  rewrite !N.mod_small by assumption. reflexivity.
Qed.

Lemma apply_app st a b : bb_apply st (a ++ b) = bb_apply (bb_apply st a) b.
Proof. apply fold_left_app. Qed.

Lemma apply_frame st kvs k : (forall v, ~ In (k, v) kvs) -> bb_apply st kvs k = st k.
Proof.
  revert st; induction kvs as [|[k0 v0] kvs IH]; intros st H; [reflexivity|]. cbn [bb_apply fold_left].
  change (fold_left _ kvs ?s) with (bb_apply s kvs). rewrite IH.
  - cbn [fst snd]. apply upd_neq. intros ->. apply (H v0). now left.
  - intros v Hv. apply (H v). now right.
Qed.

Definition pair_dec (x y : string * N) : {x = y} + {x <> y}.
Proof. decide equality; [apply N.eq_dec|apply string_dec]. Defined.

Lemma apply_unique st kvs k v :
  In (k, v) kvs -> (forall v', In (k, v') kvs -> v' = v) -> bb_apply st kvs k = Some v.
Proof.
  revert st; induction kvs as [|[k0 v0] kvs IH]; intros st Hin Hu; [destruct Hin|].
  cbn [bb_apply fold_left]. change (fold_left _ kvs ?s) with (bb_apply s kvs). cbn [fst snd].
  destruct (in_dec (pair_dec) (k, v) kvs) as [Hi|Hn].
  - apply IH; [assumption|]. intros v' Hv'. apply Hu. now right.
  - destruct Hin as [He|Hi]; [|contradiction]. inversion He; subst.
    rewrite apply_frame; [apply upd_eq|]. intros v' Hv'.
    assert (v' = v) by (apply Hu; now right). subst. contradiction.
Qed.

Lemma wf_apply st kvs : bb_wf st -> (forall k v, In (k, v) kvs -> (v < 2 ^ 32)%N) -> bb_wf (bb_apply st kvs).
Proof.
  revert st; induction kvs as [|[k0 v0] kvs IH]; intros st Hwf Hb; [assumption|]. cbn [bb_apply fold_left].
  change (fold_left _ kvs ?s) with (bb_apply s kvs). apply IH.
  - intros k v. unfold upd. cbn [fst snd]. destruct (String.eqb k0 k); intros H.
    + inversion H; subst. apply (Hb k0). now left.
    + eauto.
  - intros k v H. apply (Hb k v). now right.
Qed.

Lemma bb_attempts_pos z : (0 < bb_attempts z)%N.
Proof. unfold bb_attempts. destruct (Z.leb_spec z 0); lia. Qed.
Lemma bb_attempts_bound z : (z < 2 ^ 31)%Z -> (bb_attempts z < 2 ^ 32)%N.
Proof.
  intros Hz. unfold bb_attempts. destruct (Z.leb_spec z 0) as [H|H].
  - reflexivity.
  - change (2 ^ 32)%N with (Z.to_N (2 ^ 32)). lia.
Qed.

(** *** the primary search *)
Lemma bb_best_spec st slots p top o : bb_wf st ->
  bb_best st slots p top = Ok o ->
  (match p with Some s => exists b, sl_bootname s = Some b /\ prio_of st b = top /\ bb_ready st b | None => top = 0%N end) ->
  match o with
  | Some s => (p = Some s \/ In s slots) /\ exists b, sl_bootname s = Some b /\ bb_ready st b /\
      (top <= prio_of st b)%N /\
      forall t c, In t slots -> sl_bootname t = Some c -> bb_ready st c -> (prio_of st c <= prio_of st b)%N
  | None => p = None /\ forall t c, In t slots -> sl_bootname t = Some c -> ~ bb_ready st c
  end.
Proof.
  intros Hwf. revert p top. induction slots as [|s ss IH]; intros p top H Hp; cbn [bb_best] in H.
  - inversion H; subst. destruct o as [s|].
    + destruct Hp as (b & Hb & Ht & Hr). split; [now left|]. exists b. repeat split; auto; try apply Hr; try lia.
      intros t c [].
    + split; [reflexivity|]. intros t c [].
  - destruct (sl_bootname s) as [b|] eqn:Eb.
    + rewrite state_get_spec in H by assumption.
      destruct (st (prio_key b)) as [pp|] eqn:Ep; cbn [bind] in H; [|discriminate].
      destruct (st (att_key b)) as [aa|] eqn:Ea; cbn [bind] in H; [|discriminate].
      cbn [bb_att bb_prio] in H.
      assert (Hprio : prio_of st b = pp) by (unfold prio_of; fold (prio_key b); now rewrite Ep).
      assert (Hatt : att_of st b = aa) by (unfold att_of; fold (att_key b); now rewrite Ea).
      destruct (N.eqb_spec aa 0) as [Ha0|Ha0].
      * specialize (IH _ _ H Hp). destruct o as [x|].
        -- destruct IH as (H1 & c & H2 & H3 & H4 & H5). split; [destruct H1; [now left|right; now right]|].
           exists c. repeat split; try apply H3; auto. intros t d [->|Ht] Hd Hrd; [|eauto].
           exfalso. assert (d = b) by congruence. subst d. destruct Hrd as [_ Hrd]. lia.
        -- destruct IH as (H1 & H2). split; [assumption|]. intros t d [->|Ht] Hd Hrd; [|eapply H2; eauto].
           assert (d = b) by congruence. subst d. destruct Hrd as [_ Hrd]. lia.
      * destruct (N.ltb_spec top pp) as [Hlt|Hge].
        -- specialize (IH (Some s) pp H). 
           assert (Hps : exists b0, sl_bootname s = Some b0 /\ prio_of st b0 = pp /\ bb_ready st b0).
           { exists b. repeat split; auto; lia. }
           specialize (IH Hps). destruct o as [x|].
           ++ destruct IH as (H1 & c & H2 & H3 & H4 & H5). split; [destruct H1 as [H1|H1]; [inversion H1; subst; right; now left|right; now right]|].
              exists c. repeat split; try apply H3; auto; [lia|]. intros t d [->|Ht] Hd Hrd; [|eauto].
              assert (d = b) by congruence. subst d. lia.
           ++ destruct IH as (H1 & _). discriminate.
        -- specialize (IH _ _ H Hp). destruct o as [x|].
           ++ destruct IH as (H1 & c & H2 & H3 & H4 & H5). split; [destruct H1; [now left|right; now right]|].
              exists c. repeat split; try apply H3; auto. intros t d [->|Ht] Hd Hrd; [|eauto].
              assert (d = b) by congruence. subst d. lia.
           ++ destruct IH as (H1 & H2). split; [assumption|]. intros t d [->|Ht] Hd Hrd; [|eapply H2; eauto].
              assert (d = b) by congruence. subst d. destruct Hrd as [Hrd _]. subst p. lia.
    + specialize (IH _ _ H Hp). destruct o as [x|].
      * destruct IH as (H1 & c & H2 & H3 & H4 & H5). split; [destruct H1; [now left|right; now right]|].
        exists c. repeat split; try apply H3; auto. intros t d [->|Ht] Hd Hrd; [congruence|eauto].
      * destruct IH as (H1 & H2). split; [assumption|]. intros t d [->|Ht] Hd Hrd; [congruence|eapply H2; eauto].
Qed.

Lemma bb_best_total st slots p top : bb_wf st ->
  (forall t c, In t slots -> sl_bootname t = Some c -> st (prio_key c) <> None /\ st (att_key c) <> None) ->
  exists o, bb_best st slots p top = Ok o.
Proof.
  intros Hwf. revert p top; induction slots as [|s ss IH]; intros p top H; cbn [bb_best]; [eauto|].
  assert (Hr : forall t c, In t ss -> sl_bootname t = Some c -> st (prio_key c) <> None /\ st (att_key c) <> None).
  { intros t c Ht. apply H. now right. }
  destruct (sl_bootname s) as [b|] eqn:Eb; [|auto].
  destruct (H s b (or_introl eq_refl) Eb) as [H1 H2]. rewrite state_get_spec by assumption.
  destruct (st (prio_key b)); [|congruence]. destruct (st (att_key b)); [|congruence]. cbn [bind].
  destruct (_ =? _)%N; [auto|]. destruct (_ <? _)%N; auto.
Qed.

(** what a successful priority pass has written and seen *)
Lemma bb_prios_spec st slots s ps : bb_wf st -> bb_prios st slots s = Ok ps ->
  (forall t c, In t slots -> sl_bootname t = Some c ->
      st (prio_key c) <> None /\ st (att_key c) <> None /\
      In (prio_key c, if same_slot t s then 20%N else if (prio_of st c =? 0)%N then 0%N else 10%N) ps) /\
  (forall k v, In (k, v) ps -> exists t c, In t slots /\ sl_bootname t = Some c /\ k = prio_key c /\
      v = if same_slot t s then 20%N else if (prio_of st c =? 0)%N then 0%N else 10%N).
Proof.
  intros Hwf. revert ps; induction slots as [|t ts IH]; intros ps H; cbn [bb_prios] in H.
  - inversion H; subst. split; [intros ? ? []|intros ? ? []].
  - destruct (sl_bootname t) as [b|] eqn:Eb.
    + rewrite state_get_spec in H by assumption.
      destruct (st (prio_key b)) as [pp|] eqn:Ep; cbn [bind] in H; [|discriminate].
      destruct (st (att_key b)) as [aa|] eqn:Ea; cbn [bind] in H; [|discriminate].
      destruct (bb_prios st ts s) as [rest| |]; cbn [bind] in H; try discriminate.
      inversion H; subst; clear H. cbn [bb_prio].
      assert (Hprio : prio_of st b = pp) by (unfold prio_of; fold (prio_key b); now rewrite Ep).
      destruct (IH _ eq_refl) as [IH1 IH2]. split.
      * intros u c [->|Hu] Hc.
        -- assert (c = b) by congruence. subst c. repeat split; try congruence. left. now rewrite Hprio.
        -- destruct (IH1 u c Hu Hc) as (? & ? & ?). repeat split; auto. now right.
      * intros k v [He|Hi].
        -- inversion He; subst. exists t, b. repeat split; auto. now left.
        -- destruct (IH2 k v Hi) as (u & c & ? & ? & ? & ?). exists u, c. repeat split; auto. now right.
    + destruct (IH _ H) as [IH1 IH2]. split.
      * intros u c [->|Hu] Hc; [congruence|eauto].
      * intros k v Hi. destruct (IH2 k v Hi) as (u & c & ? & ? & ? & ?). exists u, c. repeat split; auto. now right.
Qed.

Lemma same_slot_true s t slots : unique_names slots -> In s slots -> In t slots -> same_slot t s = true -> t = s.
Proof.
  intros Hun Hin Ht Heq. unfold same_slot in Heq. apply String.eqb_eq in Heq.
  unfold unique_names in Hun. induction slots as [|y l IH]; [destruct Ht|].
  cbn in Hun. inversion Hun as [|? ? Hy Hl]; subst. destruct Ht as [->|Ht], Hin as [->|Hin]; auto.
  - exfalso. apply Hy. rewrite Heq. now apply in_map.
  - exfalso. apply Hy. rewrite <- Heq. now apply in_map.
Qed.

Lemma in_targets slots c : In c (targets slots) <-> exists t, In t slots /\ sl_bootname t = Some c.
Proof.
  unfold targets. rewrite in_flat_map. split; intros (t & Ht & H); exists t; (split; [assumption|]).
  - destruct (sl_bootname t); [destruct H as [->|[]]; reflexivity|destruct H].
  - rewrite H. now left.
Qed.

(** *** final statements *)
Lemma barebox_set_primary_ok : forall st slots cfg s b kvs,
  bb_wf st -> unique_names slots -> unique_bootnames slots -> In s slots -> sl_bootname s = Some b ->
  (cfg < 2 ^ 31)%Z ->
  barebox_set_primary st slots cfg s b = Ok kvs ->
  let st' := bb_apply st kvs in
  barebox_get_primary st' slots = Ok s /\
  barebox_get_state st' b = Ok true /\
  bb_boots st' (targets slots) b /\
  prio_of st' b = 20%N /\ att_of st' b = (if (cfg <=? 0)%Z then 3%N else Z.to_N cfg) /\
  (forall c, In c (targets slots) -> c <> b ->
     prio_of st' c = (if (prio_of st c =? 0)%N then 0%N else 10%N) /\ att_of st' c = att_of st c) /\
  (forall k, (forall c, In c (targets slots) -> k <> ("bootstate." ++ c ++ ".priority")%string) ->
     k <> ("bootstate." ++ b ++ ".remaining_attempts")%string -> st' k = st k).
Proof.
  intros st slots cfg s b kvs Hwf Hun Hub Hin Hb Hcfg Hset st'.
  unfold barebox_set_primary in Hset. destruct (bb_prios st slots s) as [ps| |] eqn:Eps; cbn [bind] in Hset; try discriminate.
  inversion Hset; subst kvs; clear Hset.
  destruct (bb_prios_spec st slots s ps Hwf Eps) as [Hps1 Hps2].
  assert (Hnoatt : forall c v, ~ In (att_key c, v) ps).
  { intros c v H. apply Hps2 in H as (t & d & _ & _ & H & _). symmetry in H. now apply prio_att_neq in H. }
  assert (Hprio : forall t c, In t slots -> sl_bootname t = Some c ->
    st' (prio_key c) = Some (if same_slot t s then 20%N else if (prio_of st c =? 0)%N then 0%N else 10%N)).
  { intros t c Ht Hc. apply apply_unique.
    - apply in_or_app. left. eapply Hps1; eauto.
    - intros v' Hv'. apply in_app_or in Hv' as [Hv'|[Hv'|[]]].
      + apply Hps2 in Hv' as (u & d & Hu & Hd & Hk & ->). apply prio_key_inj in Hk. subst d.
        assert (u = t) by (eapply unique_slot; eauto). now subst.
      + apply (f_equal fst) in Hv'. cbn [fst] in Hv'. symmetry in Hv'. now apply prio_att_neq in Hv'. }
  assert (Hattb : st' (att_key b) = Some (bb_attempts cfg)).
  { unfold st'. rewrite apply_app. cbn [bb_apply fold_left fst snd]. apply upd_eq. }
  assert (Hatto : forall c, c <> b -> st' (att_key c) = st (att_key c)).
  { intros c Hc. unfold st'. apply apply_frame. intros v Hv. apply in_app_or in Hv as [Hv|[Hv|[]]].
    - now apply Hnoatt in Hv.
    - apply (f_equal fst) in Hv. cbn [fst] in Hv. apply att_key_inj in Hv. congruence. }
  assert (Hss : same_slot s s = true) by (unfold same_slot; apply String.eqb_refl).
  assert (Hpb : prio_of st' b = 20%N).
  { unfold prio_of. fold (prio_key b). rewrite (Hprio s b Hin Hb), Hss. reflexivity. }
  assert (Hab : att_of st' b = bb_attempts cfg) by (unfold att_of; fold (att_key b); now rewrite Hattb).
  assert (Hoth : forall c, In c (targets slots) -> c <> b ->
     prio_of st' c = (if (prio_of st c =? 0)%N then 0%N else 10%N) /\ att_of st' c = att_of st c).
  { intros c Hc Hcb. apply in_targets in Hc as (t & Ht & Htc). split.
    - unfold prio_of at 1. fold (prio_key c). rewrite (Hprio t c Ht Htc).
      destruct (same_slot t s) eqn:Es; [|reflexivity].
      apply (same_slot_true s t slots) in Es; auto. subst t. congruence.
    - unfold att_of. fold (att_key c). now rewrite Hatto. }
  pose proof (bb_attempts_pos cfg) as Hpos.
  assert (Hwf' : bb_wf st').
  { apply wf_apply; [assumption|]. intros k v Hv. apply in_app_or in Hv as [Hv|[Hv|[]]].
    - apply Hps2 in Hv as (t & c & _ & _ & _ & ->). destruct (same_slot t s); [reflexivity|].
      destruct (prio_of st c =? 0)%N; reflexivity.
    - inversion Hv; subst. now apply bb_attempts_bound. }
  assert (Hboots : bb_boots st' (targets slots) b).
  { split; [apply in_targets; eauto|]. split; [split; lia|]. intros c Hc Hcb Hr.
    destruct (Hoth c Hc Hcb) as [-> _]. rewrite Hpb. destruct (prio_of st c =? 0)%N; lia. }
  split; [|split; [|split; [exact Hboots|split; [exact Hpb|split; [exact Hab|split; [exact Hoth|]]]]]].
  - unfold barebox_get_primary.
    destruct (bb_best_total st' slots None 0 Hwf') as [o Ho].
    { intros t c Ht Hc. rewrite (Hprio t c Ht Hc). split; [discriminate|].
      destruct (string_dec c b) as [->|Hcb]; [rewrite Hattb; discriminate|]. rewrite Hatto by assumption.
      now destruct (Hps1 t c Ht Hc) as (_ & ? & _). }
    rewrite Ho. cbn [bind]. pose proof (bb_best_spec st' slots None 0 o Hwf' Ho eq_refl) as Hspec.
    destruct Hboots as (_ & Hrb & Hmax).
    destruct o as [x|].
    + destruct Hspec as ([Hx|Hx] & c & Hc & Hr & _ & Hbest); [discriminate|].
      specialize (Hbest s b Hin Hb Hrb).
      destruct (string_dec c b) as [->|Hcb].
      * f_equal. eapply unique_slot; eauto.
      * assert (Hct : In c (targets slots)) by (apply in_targets; eauto).
        specialize (Hmax c Hct Hcb Hr). lia.
    + destruct Hspec as (_ & Hno). exfalso. eapply Hno; eauto.
  - unfold barebox_get_state. rewrite state_get_spec by assumption.
    rewrite (Hprio s b Hin Hb), Hss, Hattb. cbn [bind bb_prio bb_att].
    f_equal. cbn. apply N.ltb_lt. exact Hpos.
  - intros k Hk1 Hk2. unfold st'. apply apply_frame. intros v Hv. apply in_app_or in Hv as [Hv|[Hv|[]]].
    + apply Hps2 in Hv as (t & c & Ht & Hc & -> & _). apply (Hk1 c); [apply in_targets; eauto|reflexivity].
    + apply (f_equal fst) in Hv. cbn [fst] in Hv. now apply Hk2.
Qed.

Lemma barebox_mark_bad_ok : forall st cfg b,
  bb_wf st ->
  let st' := bb_apply st (barebox_set_state cfg b false) in
  ~ bb_ready st' b /\
  barebox_get_state st' b = Ok false /\
  (forall slots t, barebox_get_primary st' slots = Ok t -> sl_bootname t <> Some b) /\
  (forall k, k <> ("bootstate." ++ b ++ ".priority")%string ->
             k <> ("bootstate." ++ b ++ ".remaining_attempts")%string -> st' k = st k).
Proof.
  intros st cfg b Hwf st'.
  assert (Hwf' : bb_wf st').
  { apply wf_apply; [assumption|]. intros k v [H|[H|[]]]; inversion H; subst; reflexivity. }
  assert (Ha : st' (att_key b) = Some 0%N).
  { unfold st'. cbn [barebox_set_state bb_apply fold_left fst snd]. apply upd_eq. }
  assert (Hp : st' (prio_key b) = Some 0%N).
  { unfold st'. cbn [barebox_set_state bb_apply fold_left fst snd].
    rewrite upd_neq; [apply upd_eq|]. intros H. symmetry in H. now apply prio_att_neq in H. }
  assert (Hnr : ~ bb_ready st' b).
  { intros [H _]. unfold prio_of in H. fold (prio_key b) in H. rewrite Hp in H. lia. }
  split; [assumption|]. split; [|split].
  - unfold barebox_get_state. rewrite state_get_spec by assumption. rewrite Ha, Hp. reflexivity.
  - intros slots t H. unfold barebox_get_primary in H.
    destruct (bb_best st' slots None 0) as [o| |] eqn:E; cbn [bind] in H; try discriminate.
    destruct o as [x|]; [|discriminate]. inversion H; subst x.
    apply bb_best_spec in E; auto. destruct E as (_ & c & Hc & Hr & _). intros Hb.
    assert (c = b) by congruence. now subst c.
  - intros k H1 H2. unfold st'. cbn [barebox_set_state bb_apply fold_left fst snd].
    rewrite !upd_neq by (unfold prio_key, att_key; congruence). reflexivity.
Qed.

Lemma barebox_mark_good_ok : forall st cfg b,
  bb_wf st -> (cfg < 2 ^ 31)%Z -> st ("bootstate." ++ b ++ ".priority")%string <> None ->
  let st' := bb_apply st (barebox_set_state cfg b true) in
  barebox_get_state st' b = Ok (0 <? prio_of st b)%N /\
  att_of st' b = (if (cfg <=? 0)%Z then 3%N else Z.to_N cfg) /\
  (forall k, k <> ("bootstate." ++ b ++ ".remaining_attempts")%string -> st' k = st k).
Proof.
  intros st cfg b Hwf Hcfg Hex st'. fold (prio_key b) in Hex.
  assert (Hwf' : bb_wf st').
  { apply wf_apply; [assumption|]. intros k v [H|[]]; inversion H; subst. now apply bb_attempts_bound. }
  assert (Ha : st' (att_key b) = Some (bb_attempts cfg)).
  { unfold st'. cbn [barebox_set_state bb_apply fold_left fst snd]. apply upd_eq. }
  assert (Hf : forall k, k <> att_key b -> st' k = st k).
  { intros k H. unfold st'. cbn [barebox_set_state bb_apply fold_left fst snd]. rewrite upd_neq by congruence. reflexivity. }
  assert (Hp : st' (prio_key b) = st (prio_key b)) by (apply Hf; apply prio_att_neq).
  split; [|split; [|exact Hf]].
  - unfold barebox_get_state. rewrite state_get_spec by assumption. rewrite Ha, Hp.
    unfold prio_of. fold (prio_key b). destruct (st (prio_key b)) as [p|]; [|congruence].
    cbn [bind bb_prio bb_att]. destruct (0 <? p)%N; [|reflexivity]. f_equal. apply N.ltb_lt, bb_attempts_pos.
  - unfold att_of. fold (att_key b). now rewrite Ha.
Qed.

Lemma barebox_get_primary_ok : forall st slots s,
  bb_wf st -> barebox_get_primary st slots = Ok s ->
  In s slots /\ exists b, sl_bootname s = Some b /\ bb_ready st b /\
    forall c, In c (targets slots) -> bb_ready st c -> (prio_of st c <= prio_of st b)%N.
Proof.
  intros st slots s Hwf H. unfold barebox_get_primary in H.
  destruct (bb_best st slots None 0) as [o| |] eqn:E; cbn [bind] in H; try discriminate.
  destruct o as [x|]; [|discriminate]. inversion H; subst x.
  apply bb_best_spec in E; auto. destruct E as ([Hx|Hx] & b & Hb & Hr & _ & Hbest); [discriminate|].
  split; [assumption|]. exists b. repeat split; try apply Hr; auto.
  intros c Hc Hrc. apply in_targets in Hc as (t & Ht & Htc). eauto.
Qed.
