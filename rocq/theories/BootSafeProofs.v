From Verif Require Import Base BaseLemmas Slot Image Handlers Install InstallSpec InstallProofs InstallRun InstallRunSpec InstallRunProofs.

Section Safe.
Context {B : Type}.
Variables (cf : sysconf) (good : B -> Prop) (cand bt : B -> string -> Prop) (bk : backend B).
Let slots := cf_slots cf.
Hypothesis L : boot_laws slots good cand bt bk.
Hypothesis Hu : unique_names slots.
Hypothesis Hd : distinct_devices slots.
Hypothesis Hw : wf_parents slots.
Hypothesis Hb : unique_bootnames slots.
Hypothesis Hp : cf_per_slot cf = false.

Lemma along_tag (P : world B -> Prop) tag l : forall w,
  (forall b, tag b = EBad b) \/ (forall b, tag b = EAct b) ->
  P w -> (forall b', In b' l -> P (mkWorld (w_mem w) (w_disk w) (w_dev w) b')) -> along P w (map tag l).
Proof.
  induction l as [|b l IH]; intros w Ht H0 H; cbn [map]; [apply along_nil; exact H0|].
  assert (E : apply w (tag b) = mkWorld (w_mem w) (w_disk w) (w_dev w) b) by (destruct Ht as [Ht|Ht]; rewrite Ht; reflexivity).
  apply along_cons; [exact H0|]. rewrite E. apply IH; [exact Ht|apply H; left; reflexivity|].
  intros b' Hb'. cbn. apply H. right; exact Hb'.
Qed.

Lemma last_in {A} (l : list A) d : last l d = d \/ In (last l d) l.
Proof.
  induction l as [|a l IH]; [left; reflexivity|]. right. destruct l as [|b l]; [left; reflexivity|].
  cbn [last]. right. destruct IH as [E|E]; [|exact E]. cbn [last] in E. 
  assert (forall (l : list A) b, l <> [] -> last (b :: l) d = last l d) by (intros [|] ?; [congruence|reflexivity]).
  destruct l; [left; reflexivity|]. 
  clear - E. revert b a0 E. induction l; intros; [right; left; reflexivity|].
  cbn [last] in *. right. apply (IHl a0 a E).
Qed.

Lemma safe_dev w w' : w_boot w' = w_boot w -> (forall d, w_dev w' d = w_dev w d) ->
  boot_safe slots good cand bt w -> boot_safe slots good cand bt w'.
Proof.
  intros Eb Ed (H1 & H2 & H3). unfold boot_safe. rewrite Eb. split; [exact H1|]. split; [|exact H3].
  intros n Hn s r Hs Hg Hr. rewrite Ed. eapply H2; eauto.
Qed.

Lemma safe_install inp w : status_true slots w -> boot_safe slots good cand bt w -> proper cand cf inp w ->
  along (boot_safe slots good cand bt) w (snd (install bk cf inp w)).
Proof.
  intros Hst Hs ((realdev & bs & r0 & m & Hdet & Hr0 & Hr0p & Hr0b & Hr0n & Hm) & Hcov).
  destruct L as (L1 & L2 & L3 & L4).
  destruct (install_cases B bk cf inp w) as [(r' & E & N)|(ps & bm & (Hpl & Hbm & Hck) & E)]; rewrite E.
  { apply along_nil; exact Hs. }
  specialize (Hcov ps Hpl).
  assert (Hin : forall s, In s (written ps) -> In s slots) by (intros; eapply written_in; eauto).
  assert (Hnd : NoDup (map sl_device (written ps))) by (eapply written_nodup; eauto).
  pose proof (boot_mark_final_ok _ _ Hbm) as Hbmf.
  destruct Hs as (Hg & Hc & Hex).
  (* the marked slot is not the booted one *)
  assert (Hne : forall t n, bm = Some t -> sl_bootname t = Some n -> m <> n).
  { intros t n -> Hn Emn. subst n. destruct Hbmf as (Ht & _).
    destruct (c01_ok realdev bs slots (in_states inp) (cf_per_slot cf) (in_info inp) (cf_variant cf) (in_images inp)
       (cf_repos cf) (in_artifacts_ok inp) ps r0 Hu Hw Hdet Hr0 Hr0b Hr0p Hpl t Ht) as (Hnn & _).
    apply Hnn. apply (Hb t r0 m); auto. }
  unfold run_checked. rewrite Hp.
  set (b1 := match bm with None => _ | Some _ => _ end).
  (* phase 1 *)
  assert (P1 : along (boot_safe slots good cand bt) w (snd b1)).
  { destruct bm as [t|]; cbn; [|apply along_nil; split; auto].
    destruct Hbmf as (Ht & Htp & Htn & _). destruct (sl_bootname t) as [n|] eqn:En; [|congruence].
    specialize (Hne t n eq_refl En).
    destruct (L3 (w_boot w) t n m Hg (Hin t Ht) En Hne Hm) as [L3a L3b].
    assert (S : forall b', In b' (bk_bad bk (w_boot w) t) -> boot_safe slots good cand bt (mkWorld (w_mem w) (w_disk w) (w_dev w) b')).
    { intros b' Hb'. destruct (L3a b' Hb') as (G & C1 & C2). split; [exact G|]. cbn [w_boot]. split.
      - intros x Hx s r Hss Hgr Hr. cbn [w_dev]. refine (Hc x _ s r Hss Hgr Hr).
        destruct (String.eqb_spec x n) as [->|Nx]; [apply C1; exact Hx|apply C2; assumption].
      - apply (L2 b' m G). apply C2; assumption. }
    unfold boot_events. destruct (ro_bad (in_out inp)) as [k|]; cbn [snd].
    - apply along_tag; [left; reflexivity|split; auto|]. intros b' Hb'. apply S.
      rewrite <- (firstn_skipn k). apply in_or_app. left; exact Hb'.
    - apply along_tag; [left; reflexivity|split; auto|]. exact S. }
  assert (Hb1 : fst b1 = true -> snd b1 = match bm with Some s => map EBad (bk_bad bk (w_boot w) s) | None => [] end).
  { destruct bm; cbn; [|reflexivity]. unfold boot_events. destruct (ro_bad (in_out inp)); cbn; [discriminate|reflexivity]. }
  assert (S1 : along (status_true slots) w (snd b1)).
  { destruct bm; cbn; [|apply along_nil; exact Hst]. apply st_boot_events; auto using st_boot_bad. }
  destruct b1 as [ok1 es1]. cbn [fst snd] in *. destruct ok1; cbn [negb]; [|exact P1].
  specialize (Hb1 eq_refl). set (w1 := replay w es1) in *.
  assert (D1 : forall d, w_dev w1 d = w_dev w d).
  { unfold w1. rewrite Hb1. intros d. destruct bm; [apply bad_replay|reflexivity]. }
  assert (G1 := along_last _ _ _ P1). fold w1 in G1. destruct G1 as (G1g & G1c & G1e).
  (* no candidate has a slot that is written *)
  assert (NC : forall x s r, cand (w_boot w1) x -> In s slots -> group_root slots s r -> sl_bootname r = Some x -> ~ In s (written ps)).
  { intros x s r Hx Hss Hgr Hr Hws.
    destruct (Hcov s r Hss Hgr) as [C1 _]; [congruence|]. specialize (C1 Hws).
    destruct Hgr as (Hrs & Hrp & _).
    destruct bm as [t|].
    - destruct Hbmf as (Ht & Htp & Htn & Huq).
      assert (r = t) by (apply Huq; auto; congruence). subst r.
      specialize (Hne t x eq_refl Hr).
      destruct (L3 (w_boot w) t x m Hg (Hin t Ht) Hr Hne Hm) as [_ L3b]. apply L3b.
      destruct (bad_replay (bk_bad bk (w_boot w) t) w) as (E1 & _). rewrite <- E1, <- Hb1. exact Hx.
    - rewrite (Hbmf r C1 Hrp) in Hr. discriminate. }
  assert (Cm : cand (w_boot w1) m).
  { destruct bm as [t|]; [|unfold w1; rewrite Hb1; exact Hm].
    destruct Hbmf as (Ht & Htp & Htn & Huq). destruct (sl_bootname t) as [n|] eqn:En; [|congruence].
    specialize (Hne t n eq_refl En).
    destruct (L3 (w_boot w) t n m Hg (Hin t Ht) En Hne Hm) as [L3a _].
    destruct (bad_replay (bk_bad bk (w_boot w) t) w) as (E1 & _). unfold w1. rewrite Hb1, E1.
    destruct (last_in (bk_bad bk (w_boot w) t) (w_boot w)) as [E2|E2]; [rewrite E2; exact Hm|].
    apply (L3a _ E2); assumption. }
  (* phase 2 *)
  pose proof (frame_plans false (ro_plans (in_out inp)) ps 0 w1) as FP.
  assert (FD : forall x, frame ps w1 x -> forall s, In s slots -> ~ In s (written ps) -> w_dev x (sl_device s) = w_dev w (sl_device s)).
  { intros x [_ F2] s Hss Hns. rewrite F2; [apply D1|]. intros Hx. apply in_map_iff in Hx. destruct Hx as (t & He & Hx).
    apply (other_device slots Hd t s); auto. intros ->. exact (Hns Hx). }
  assert (P2 : along (boot_safe slots good cand bt) w1 (snd (run_plans false (ro_plans (in_out inp)) 0 w1 ps))).
  { eapply along_impl; [|exact FP]. intros x F. pose proof F as [F1 F2]. unfold boot_safe. rewrite F1.
    split; [exact G1g|]. split; [|exact G1e].
    intros y Hy s r Hss Hgr Hr.
    rewrite (FD x F s Hss (NC y s r Hy Hss Hgr Hr)). rewrite <- D1. exact (G1c y Hy s r Hss Hgr Hr). }
  pose proof (plans_whole slots (ro_plans (in_out inp)) ps 0 w1 Hu Hd Hin Hnd (along_last _ _ _ S1)) as PW.
  apply along_last in FP.
  destruct (run_plans false (ro_plans (in_out inp)) 0 w1 ps) as [ok2 es2]. cbn [fst snd] in *.
  assert (P12 : along (boot_safe slots good cand bt) w (es1 ++ es2)) by (apply along_app; auto).
  destruct ok2; cbn [negb]; [|exact P12]. specialize (PW eq_refl).
  destruct (ro_prune (in_out inp)); cbn [negb]; [|exact P12].
  destruct bm as [t|]; [|exact P12]. destruct (cf_activate cf); [|exact P12].
  (* phase 3 *)
  destruct Hbmf as (Ht & Htp & Htn & Huq). destruct (sl_bootname t) as [n|] eqn:En; [|congruence].
  specialize (Hne t n eq_refl En).
  set (w2 := replay w1 es2) in *.
  assert (B2 : w_boot w2 = w_boot w1) by apply FP.
  assert (G2 := along_last _ _ _ P2). fold w2 in G2.
  destruct (L4 (w_boot w2) t n) as [L4a L4b]; auto. { rewrite B2; exact G1g. }
  assert (In_n : intact slots w2 n).
  { intros s r Hss Hgr Hr.
    assert (r = t). { destruct Hgr as (Hrs & _). apply (same_name_eq slots); auto. apply (Hb r t n); auto. }
    subst r. destruct (in_dec string_dec (sl_name s) (map sl_name (written ps))) as [I|I].
    - apply in_map_iff in I. destruct I as (s' & Hs' & I). assert (s' = s) by (apply (same_name_eq slots); auto). subst s'.
      unfold written in I. apply in_flat_map in I. destruct I as (p & Hpp & I).
      destruct (pl_target p) as [s' h|] eqn:T; [|destruct I]. destruct I as [->|[]].
      rewrite (PW p s h Hpp T). discriminate.
    - assert (Ns : ~ In s (written ps)) by (intros X; apply I; apply in_map; exact X).
      rewrite (FD w2 FP s Hss Ns). intros X. apply Ns.
      destruct (Hcov s t Hss Hgr) as [_ C2]; [congruence|]. apply C2; auto. }
  assert (S3 : forall b', In b' (bk_act bk (w_boot w2) t) -> boot_safe slots good cand bt (mkWorld (w_mem w2) (w_disk w2) (w_dev w2) b')).
  { intros b' Hb'. destruct (L4a b' Hb') as (G & C2). split; [exact G|]. cbn [w_boot]. split.
    - intros x Hx. destruct (String.eqb_spec x n) as [->|Nx].
      + intros s r Hss Hgr Hr. exact (In_n s r Hss Hgr Hr).
      + destruct G2 as (_ & G2c & _). intros s r Hss Hgr Hr. cbn [w_dev]. refine (G2c x _ s r Hss Hgr Hr). apply C2; assumption.
    - apply (L2 b' m G). apply C2; [exact Hne|]. rewrite B2. exact Cm. }
  assert (P3 : along (boot_safe slots good cand bt) w2 (snd (boot_events EAct (bk_act bk (w_boot w2) t) (ro_act (in_out inp))))).
  { unfold boot_events. destruct (ro_act (in_out inp)) as [k|]; cbn [snd].
    - apply along_tag; [right; reflexivity|exact G2|]. intros b' Hb'. apply S3.
      rewrite <- (firstn_skipn k). apply in_or_app. left; exact Hb'.
    - apply along_tag; [right; reflexivity|exact G2|exact S3]. }
  destruct (boot_events EAct _ (ro_act (in_out inp))) as [ok3 es3]. cbn [snd] in P3.
  destruct ok3; cbn [snd].
  - rewrite app_assoc. apply along_app; [exact P12|]. rewrite replay_app. apply along_app; [exact P3|].
    assert (G3 := along_last _ _ _ P3). destruct (ro_act_save (in_out inp)); cbn.
    + apply along_cons; [exact G3|]. apply along_nil. eapply safe_dev; [| |exact G3]; reflexivity.
    + apply along_nil; exact G3.
  - rewrite app_assoc. apply along_app; [exact P12|]. rewrite replay_app. exact P3.
Qed.

Lemma safe_life w0 w : status_true slots w0 -> boot_safe slots good cand bt w0 ->
  proper_life cand bk cf w0 w -> status_true slots w /\ boot_safe slots good cand bt w.
Proof.
  intros H0 S0 Lf. induction Lf as [w|w w1 inp Lf IH Pr|w w1 inp n Lf IH Pr|w w1 Lf IH].
  - auto.
  - destruct (IH H0 S0) as [I1 I2]. split.
    + apply along_last. apply st_install; auto.
    + apply along_last. apply safe_install; auto.
  - destruct (IH H0 S0) as [I1 I2]. split.
    + apply restart_true. apply (st_install bk cf inp w1 Hu Hd Hw Hp I1 n).
    + eapply safe_dev; [| |apply (safe_install inp w1 I1 I2 Pr n)]; reflexivity.
  - destruct (IH H0 S0) as [I1 I2]. split; [apply restart_true; exact I1|].
    eapply safe_dev; [| |exact I2]; reflexivity.
Qed.
End Safe.

Lemma c46_ok : forall B cf (good : B -> Prop) cand bt bk w0 w,
  boot_laws (cf_slots cf) good cand bt bk ->
  unique_names (cf_slots cf) -> distinct_devices (cf_slots cf) -> wf_parents (cf_slots cf) ->
  unique_bootnames (cf_slots cf) -> cf_per_slot cf = false ->
  status_true (cf_slots cf) w0 -> boot_safe (cf_slots cf) good cand bt w0 ->
  proper_life cand bk cf w0 w ->
  (exists n, bt (w_boot w) n) /\ forall n, bt (w_boot w) n -> intact (cf_slots cf) w n.
Proof.
  intros B cf good cand bt bk w0 w L Hu Hd Hw Hb Hp H0 S0 Lf.
  destruct (safe_life cf good cand bt bk L Hu Hd Hw Hb Hp w0 w H0 S0 Lf) as [_ (G & C & E)].
  split; [exact E|]. intros n Hn. apply C. destruct L as (L1 & _). apply L1; auto.
Qed.
