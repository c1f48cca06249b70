From Verif Require Import Base BaseLemmas Slot Uboot UbootSpec UbootProofs Grub GrubSpec GrubProofs
  Barebox BareboxSpec BareboxProofs Install InstallSpec InstallRun InstallRunSpec BootInst.

(** ** U-Boot *)
Lemma uboot_first e n : uboot_cand e n -> exists m, boots e m.
Proof.
  intros [Hin Hl]. unfold boots. induction (order_of e) as [|x l IH]; [destruct Hin|].
  destruct (N.eq_dec (left_of e x) 0) as [E|E].
  - destruct Hin as [->|Hin]; [lia|]. destruct (IH Hin) as (m & pre & post & -> & H1 & H2).
    exists m, (x :: pre), post. repeat split; auto.
  - exists x, [], l. repeat split; auto. lia.
Qed.

Lemma order_some e v : e "BOOT_ORDER" = Some v -> val_of e "BOOT_ORDER" = Some (chomp v).
Proof. intros H. unfold val_of. rewrite H. reflexivity. Qed.

Lemma uboot_bad_writes e v cfg b : e "BOOT_ORDER" = Some v ->
  uboot_set_state (fw_printenv e) cfg b false =
   [("BOOT_ORDER", join " " (filter (fun w => negb (String.eqb w b)) (order_of e))); (left_key b, print_num 16 0)].
Proof.
  intros H. apply order_some in H. unfold uboot_set_state. rewrite env_get_direct, H.
  cbn [of_option option_map]. rewrite (other_words_order e _ b H). reflexivity.
Qed.

Lemma uboot_act_writes e v slots cfg s b : e "BOOT_ORDER" = Some v ->
  uboot_set_primary (fw_printenv e) slots cfg s b =
   [(left_key b, print_num 16 (attempts_or_default cfg));
    ("BOOT_ORDER", join " " (b :: filter (fun w => negb (String.eqb w b)) (order_of e)))].
Proof.
  intros H. apply order_some in H. unfold uboot_set_primary. rewrite env_get_direct, H.
  cbn [of_option option_map]. rewrite (other_words_order e _ b H). reflexivity.
Qed.

Lemma in_filter_ne b m l : m <> b -> (In m (filter (fun w => negb (String.eqb w b)) l) <-> In m l).
Proof.
  intros H. rewrite filter_In. apply String.eqb_neq in H. rewrite H. cbn. tauto.
Qed.

Lemma not_in_filter b l : ~ In b (filter (fun w => negb (String.eqb w b)) l).
Proof. rewrite filter_In, String.eqb_refl. intros [_ H]. discriminate. Qed.

Lemma uboot_laws_ok : forall del slots cfg_default cfg_primary,
  (forall s b, In s slots -> sl_bootname s = Some b -> clean_word b = true) ->
  (cfg_primary < 2 ^ 31)%Z ->
  boot_laws slots uboot_good uboot_cand boots (uboot_backend del slots cfg_default cfg_primary).
Proof.
  intros del slots cfd cfp Hcl Hcfg. split; [|split; [|split]].
  - intros e n _ (pre & post & Ho & Hl & _). split; [rewrite Ho; apply in_or_app; right; left; reflexivity|exact Hl].
  - intros e n _ Hc. eapply uboot_first; eauto.
  - intros e s n x [Hco Hset] Hs Hn Hx [Hxo Hxl].
    destruct (e "BOOT_ORDER") as [v|] eqn:Ev; [|congruence]. clear Hset.
    cbn [bk_bad uboot_backend]. rewrite Hn, (uboot_bad_writes e v cfd n Ev).
    set (l := filter (fun w => negb (String.eqb w n)) (order_of e)).
    assert (HF : Forall (fun w => clean_word w = true) l) by (apply Forall_filter; exact Hco).
    assert (Hl0 : l <> []).
    { intros E. apply (in_filter_ne n x (order_of e)) in Hxo; [|exact Hx]. fold l in Hxo. rewrite E in Hxo. exact Hxo. }
    cbn [uboot_steps List.length seq map firstn run fold_left].
    set (e1 := fw_setenv del e ("BOOT_ORDER", join " " l)).
    set (e2 := fw_setenv del e1 (left_key n, print_num 16 0)).
    assert (O1 : order_of e1 = l) by (apply order_of_written_exact; exact HF).
    assert (O2 : order_of e2 = l) by (unfold e2; rewrite order_upd_left; exact O1).
    assert (L1 : forall m, left_of e1 m = left_of e m) by (intros; apply left_upd_order).
    assert (L2 : forall m, m <> n -> left_of e2 m = left_of e m)
      by (intros m Hm; unfold e2; rewrite left_upd_neq by exact Hm; apply L1).
    assert (S1 : e1 "BOOT_ORDER" <> None).
    { unfold e1, fw_setenv. cbn [fst snd]. rewrite upd_eq.
      assert (join " " l <> "") by (apply join_nonempty; auto). apply String.eqb_neq in H. rewrite H, andb_false_r. discriminate. }
    assert (S2 : e2 "BOOT_ORDER" <> None).
    { unfold e2, fw_setenv. cbn [fst snd]. rewrite upd_neq by apply left_key_order. exact S1. }
    split.
    + intros e' [<-|[<-|[]]].
      * split; [split; [unfold clean_order; rewrite O1; exact HF|exact S1]|]. unfold uboot_cand. split.
        -- rewrite O1. intros [H _]. exfalso. exact (not_in_filter _ _ H).
        -- intros m Hm. rewrite O1, L1. unfold l. rewrite in_filter_ne by exact Hm. tauto.
      * split; [split; [unfold clean_order; rewrite O2; exact HF|exact S2]|]. unfold uboot_cand. split.
        -- rewrite O2. intros [H _]. exfalso. exact (not_in_filter _ _ H).
        -- intros m Hm. rewrite O2, L2 by exact Hm. unfold l. rewrite in_filter_ne by exact Hm. tauto.
    + cbn [last]. unfold uboot_cand. rewrite O2. intros [H _]. exact (not_in_filter _ _ H).
  - intros e s n [Hco Hset] Hs Hn.
    destruct (e "BOOT_ORDER") as [v|] eqn:Ev; [|congruence]. clear Hset.
    pose proof (Hcl s n Hs Hn) as Hcn.
    cbn [bk_act uboot_backend]. rewrite Hn, (uboot_act_writes e v slots cfp s n Ev).
    set (l := n :: filter (fun w => negb (String.eqb w n)) (order_of e)).
    assert (HF : Forall (fun w => clean_word w = true) l) by (constructor; [exact Hcn|apply Forall_filter; exact Hco]).
    cbn [uboot_steps List.length seq map firstn run fold_left].
    set (e1 := fw_setenv del e (left_key n, print_num 16 (attempts_or_default cfp))).
    set (e2 := fw_setenv del e1 ("BOOT_ORDER", join " " l)).
    assert (O1 : order_of e1 = order_of e) by apply order_upd_left.
    assert (O2 : order_of e2 = l) by (apply order_of_written_exact; exact HF).
    assert (L1 : forall m, m <> n -> left_of e1 m = left_of e m) by (intros; apply left_upd_neq; auto).
    assert (L1n : left_of e1 n = attempts_or_default cfp) by (apply left_upd_eq, attempts_bound; exact Hcfg).
    assert (L2 : forall m, left_of e2 m = left_of e1 m) by (intros; apply left_upd_order).
    assert (S1 : e1 "BOOT_ORDER" <> None).
    { unfold e1, fw_setenv. cbn [fst snd]. rewrite upd_neq by apply left_key_order. congruence. }
    assert (S2 : e2 "BOOT_ORDER" <> None).
    { unfold e2, fw_setenv. cbn [fst snd]. rewrite upd_eq.
      assert (join " " l <> "") by (apply join_nonempty; auto; discriminate). apply String.eqb_neq in H. rewrite H, andb_false_r. discriminate. }
    split.
    + intros e' [<-|[<-|[]]].
      * split; [split; [unfold clean_order; rewrite O1; exact Hco|exact S1]|]. unfold uboot_cand.
        intros m Hm. rewrite O1, L1 by exact Hm. tauto.
      * split; [split; [unfold clean_order; rewrite O2; exact HF|exact S2]|]. unfold uboot_cand.
        intros m Hm. rewrite O2, L2, L1 by exact Hm. unfold l. cbn [In]. rewrite in_filter_ne by exact Hm. intuition congruence.
    + cbn [last]. exists [], (filter (fun w => negb (String.eqb w n)) (order_of e)).
      split; [rewrite O2; reflexivity|]. split; [rewrite L2, L1n; apply attempts_pos|constructor].
Qed.

(** ** GRUB *)
Lemma grub_first_cand e n : grub_cand e n -> exists m, gboots e m.
Proof.
  intros [Hin Hl]. unfold gboots. induction (gorder e) as [|x l IH]; [destruct Hin|].
  destruct (gready e x) eqn:E.
  - exists x, [], l. repeat split; auto.
  - destruct Hin as [->|Hin]; [congruence|]. destruct (IH Hin) as (m & pre & post & -> & H1 & H2).
    exists m, (x :: pre), post. repeat split; auto.
Qed.

Lemma gready_ext e e' m : gvar e' (m ++ "_OK")%string = gvar e (m ++ "_OK")%string ->
  gvar e' (m ++ "_TRY")%string = gvar e (m ++ "_TRY")%string -> gready e' m = gready e m.
Proof. unfold gready. intros -> ->. reflexivity. Qed.

Lemma wf_set_primary e slots s b : wf_genv e -> ok_bootname b = true -> boot_names_ok slots ->
  wf_genv (editenv_set e (grub_set_primary slots s b)).
Proof.
  intros Hw Hok Hbn. rewrite set_primary_env by exact Hok.
  destruct (ok_bootname_spec b Hok) as (Hc & He & Hnl).
  destruct (key_no_eq b He) as [K1 K2]. destruct (key_no_nl b Hnl) as [K3 K4].
  repeat apply wf_set; auto.
  unfold order_primary. apply join_no_nl. apply order_words_clean; auto.
Qed.

Lemma grub_laws_ok : forall slots, unique_names slots -> unique_bootnames slots -> boot_names_ok slots ->
  boot_laws slots (grub_good slots) grub_cand gboots (grub_backend slots).
Proof.
  intros slots Hu Hb Hbn. split; [|split; [|split]].
  - intros e n _ (pre & post & Ho & Hl & _). split; [rewrite Ho; apply in_or_app; right; left; reflexivity|exact Hl].
  - intros e n _ Hc. eapply grub_first_cand; eauto.
  - intros e s n x [Hwf Hord] Hs Hn Hx Hc.
    assert (Hok : ok_bootname n = true) by (eapply Hbn; eauto).
    cbn [bk_bad grub_backend]. rewrite Hn.
    destruct (grub_mark_bad_ok e n Hwf Hok) as (Hnb & Hns & _ & Ho & Hfr).
    set (e' := editenv_set e (grub_set_state n false)) in *. cbv zeta in Ho, Hfr, Hnb.
    assert (Rn : gready e' n = false).
    { unfold e'. rewrite set_state_env by exact Hok. unfold gready.
      change (n ++ "_OK")%string with (ok_key n). change (n ++ "_TRY")%string with (try_key n).
      rewrite ?gvar_set_eq. rewrite (gvar_set_neq _ (try_key n)) by (intros X; symmetry in X; exact (ok_try_neq _ _ X)).
      rewrite ?gvar_set_eq. reflexivity. }
    assert (R : forall m, m <> n -> gready e' m = gready e m).
    { intros m Hm. apply gready_ext; apply Hfr.
      - intros X. apply ok_key_inj in X. congruence.
      - intros X. exact (ok_try_neq _ _ X).
      - intros X. symmetry in X. exact (ok_try_neq _ _ X).
      - intros X. apply try_key_inj in X. congruence. }
    split.
    + intros b' [<-|[]]. split; [split; [apply wf_set_state; auto|rewrite Ho; exact Hord]|]. unfold grub_cand. split.
      * rewrite Rn. intros [_ H]; discriminate.
      * intros m Hm. rewrite Ho, R by exact Hm. tauto.
    + cbn [last]. unfold grub_cand. rewrite Rn. intros [_ H]; discriminate.
  - intros e s n [Hwf Hord] Hs Hn.
    assert (Hok : ok_bootname n = true) by (eapply Hbn; eauto).
    cbn [bk_act grub_backend]. rewrite Hn.
    destruct (grub_set_primary_ok e slots s n Hwf Hu Hb Hbn Hs Hn) as (_ & _ & Hboots & (others & Ho & Hoth) & Hfr).
    cbv zeta in Hboots, Ho, Hfr. set (e' := editenv_set e (grub_set_primary slots s n)) in *.
    assert (R : forall m, m <> n -> gready e' m = gready e m).
    { intros m Hm. apply gready_ext; apply Hfr.
      - exact (ok_key_order m).
      - intros X. apply ok_key_inj in X. congruence.
      - intros X. exact (ok_try_neq _ _ X).
      - exact (try_key_order m).
      - intros X. symmetry in X. exact (ok_try_neq _ _ X).
      - intros X. apply try_key_inj in X. congruence. }
    assert (Ho' : forall m, In m (gorder e') <-> In m (targets slots)).
    { intros m. rewrite Ho. cbn [In]. rewrite Hoth, in_targets. split.
      - intros [<-|[_ H]]; eauto.
      - intros (t & Ht & Hm). destruct (string_dec n m) as [E|E]; [left; exact E|right]. split; [congruence|eauto]. }
    split; [|exact Hboots].
    intros b' [<-|[]]. split; [split; [apply wf_set_primary; auto|exact Ho']|].
    intros m Hm. unfold grub_cand. rewrite Ho', Hord, R by exact Hm. tauto.
Qed.

(** ** barebox *)
Lemma bb_prios_total st slots s : bb_wf st ->
  (forall t c, In t slots -> sl_bootname t = Some c -> st (prio_key c) <> None /\ st (att_key c) <> None) ->
  exists ps, bb_prios st slots s = Ok ps.
Proof.
  intros Hwf. induction slots as [|t ts IH]; intros H; cbn [bb_prios]; [eauto|].
  assert (Hr : forall t0 c, In t0 ts -> sl_bootname t0 = Some c -> st (prio_key c) <> None /\ st (att_key c) <> None).
  { intros t0 c Ht. apply H. now right. }
  destruct (IH Hr) as [ps E]. destruct (sl_bootname t) as [c|] eqn:Ec; [|rewrite E; eauto].
  destruct (H t c (or_introl eq_refl) Ec) as [H1 H2].
  rewrite (state_get_spec st c Hwf).
  destruct (st (prio_key c)) as [p|]; [|congruence]. destruct (st (att_key c)) as [a|]; [|congruence].
  cbn [bind]. rewrite E. cbn [bind]. eauto.
Qed.

Lemma max_exists {A} (f : A -> N) (P : A -> Prop) (Pd : forall a, {P a} + {~ P a}) l : (exists a, In a l /\ P a) ->
  exists a, In a l /\ P a /\ forall c, In c l -> P c -> (f c <= f a)%N.
Proof.
  induction l as [|x l IH]; intros (a & Ha & Hp); [destruct Ha|].
  destruct (Exists_dec P l Pd) as [E|E].
  - apply Exists_exists in E. destruct (IH E) as (m & Hm & Pm & Hmax).
    destruct (Pd x) as [Px|Nx].
    + destruct (N.le_gt_cases (f x) (f m)) as [Le|Gt].
      * exists m. repeat split; auto; [right; exact Hm|]. intros c [->|Hc] Pc; auto.
      * exists x. repeat split; auto; [left; reflexivity|]. intros c [->|Hc] Pc; [lia|]. specialize (Hmax c Hc Pc). lia.
    + exists m. repeat split; auto; [right; exact Hm|]. intros c [->|Hc] Pc; [contradiction|auto].
  - assert (N : forall c, In c l -> ~ P c) by (intros c Hc Pc; apply E, Exists_exists; eauto).
    destruct Ha as [->|Ha]; [|exfalso; exact (N a Ha Hp)].
    exists a. repeat split; auto; [left; reflexivity|]. intros c [->|Hc] Pc; [lia|exfalso; exact (N c Hc Pc)].
Qed.

Lemma bb_ready_dec st n : {bb_ready st n} + {~ bb_ready st n}.
Proof.
  unfold bb_ready. destruct (N.eq_dec (prio_of st n) 0), (N.eq_dec (att_of st n) 0);
    try (right; lia). left; lia.
Qed.

Lemma barebox_laws_ok : forall slots cfg_default cfg_primary, unique_names slots -> unique_bootnames slots ->
  (cfg_primary < 2 ^ 31)%Z ->
  boot_laws slots (barebox_good slots) (barebox_cand slots) (barebox_bt slots) (barebox_backend slots cfg_default cfg_primary).
Proof.
  intros slots cfd cfp Hu Hb Hcfg. split; [|split; [|split]].
  - intros st n _ [H _]. exact H.
  - intros st n _ [Hn Hr]. unfold barebox_bt, barebox_cand.
    destruct (max_exists (prio_of st) (bb_ready st) (bb_ready_dec st) (targets slots)) as (m & H1 & H2 & H3); [eauto|].
    exists m. split; [auto|]. intros c [Hc1 Hc2]. auto.
  - intros st s n x [Hwf Hall] Hs Hn Hx [Hxt Hxr].
    cbn [bk_bad barebox_backend]. rewrite Hn.
    destruct (barebox_mark_bad_ok st cfd n Hwf) as (Hnr & _ & _ & Hfr). cbv zeta in Hnr, Hfr.
    set (st' := bb_apply st (barebox_set_state cfd n false)) in *.
    assert (K : forall m, m <> n -> prio_of st' m = prio_of st m /\ att_of st' m = att_of st m).
    { intros m Hm. unfold prio_of, att_of. rewrite !Hfr; auto; intros X.
      - exact (prio_att_neq _ _ (eq_sym X)).
      - apply att_key_inj in X. congruence.
      - apply prio_key_inj in X. congruence.
      - exact (prio_att_neq _ _ X). }
    assert (Kn : st' (prio_key n) <> None /\ st' (att_key n) <> None).
    { unfold st', barebox_set_state, bb_apply. cbn [fold_left fst snd].
      split; [rewrite upd_neq by (intros X; symmetry in X; exact (prio_att_neq _ _ X)); rewrite upd_eq; discriminate|rewrite upd_eq; discriminate]. }
    assert (W : bb_wf st').
    { apply wf_apply; [exact Hwf|]. intros k v [E|[E|[]]]; inversion E; reflexivity. }
    split.
    + intros b' [<-|[]]. split; [split; [exact W|]|].
      * intros m Hm. destruct (string_dec m n) as [->|Nm]; [exact Kn|].
        rewrite !Hfr; [apply Hall; exact Hm| | | |]; intros X.
        -- exact (prio_att_neq _ _ (eq_sym X)).
        -- apply att_key_inj in X. congruence.
        -- apply prio_key_inj in X. congruence.
        -- exact (prio_att_neq _ _ X).
      * split; [intros [_ H]; contradiction|]. intros m Hm. unfold barebox_cand, bb_ready.
        destruct (K m Hm) as [-> ->]. tauto.
    + cbn [last]. intros [_ H]; contradiction.
  - intros st s n [Hwf Hall] Hs Hn.
    cbn [bk_act barebox_backend]. rewrite Hn.
    destruct (bb_prios_total st slots s Hwf) as [ps Eps].
    { intros t c Ht Hc. apply Hall. apply in_targets. eauto. }
    assert (E : barebox_set_primary st slots cfp s n = Ok (ps ++ [(att_key n, bb_attempts cfp)]))
      by (unfold barebox_set_primary; rewrite Eps; reflexivity).
    rewrite E.
    destruct (barebox_set_primary_ok st slots cfp s n _ Hwf Hu Hb Hs Hn Hcfg E) as (_ & _ & Hbt & Hp & Ha & Hoth & Hfr).
    cbv zeta in Hbt, Hp, Ha, Hoth, Hfr. set (st' := bb_apply st (ps ++ [(att_key n, bb_attempts cfp)])) in *.
    assert (Hnt : In n (targets slots)) by (apply in_targets; eauto).
    assert (W : bb_wf st').
    { apply wf_apply; [exact Hwf|]. intros k v Hi. apply in_app_or in Hi. destruct Hi as [Hi|[Hi|[]]].
      - destruct (bb_prios_spec st slots s ps Hwf Eps) as [_ P2]. destruct (P2 k v Hi) as (t & c & _ & _ & _ & ->).
        destruct (same_slot t s); [reflexivity|]. destruct (prio_of st c =? 0)%N; reflexivity.
      - inversion Hi; subst. apply bb_attempts_bound; exact Hcfg. }
    split.
    + intros b' [<-|[]]. split; [split; [exact W|]|].
      * intros m Hm. destruct (string_dec m n) as [->|Nm].
        { split.
          - unfold prio_of in Hp. intros X. rewrite X in Hp. discriminate.
          - unfold att_of in Ha. intros X. rewrite X in Ha. pose proof (bb_attempts_pos cfp) as Y. unfold bb_attempts in Y. lia. }
        split.
        { destruct (bb_prios_spec st slots s ps Hwf Eps) as [P1 P2].
          apply in_targets in Hm. destruct Hm as (t & Ht & Hm). destruct (P1 t m Ht Hm) as (_ & _ & Hin).
          assert (NN : forall kvs st0, In (prio_key m) (map fst kvs) -> bb_apply st0 kvs (prio_key m) <> None).
          { clear. unfold bb_apply. induction kvs as [|[k v] r IH] using rev_ind; intros st0 H; [destruct H|].
            rewrite fold_left_app. cbn [fold_left fst snd]. destruct (string_dec k (prio_key m)) as [->|Nk].
            - rewrite upd_eq. discriminate.
            - rewrite upd_neq by exact Nk. apply IH. rewrite map_app in H. apply in_app_or in H.
              destruct H as [H|[H|[]]]; [exact H|exfalso; apply Nk; exact H]. }
          apply NN. rewrite map_app. apply in_or_app. left. apply in_map_iff. eexists. split; [|exact Hin]. reflexivity. }
        { rewrite Hfr; [apply Hall; exact Hm| |].
          - intros c Hc X. exact (prio_att_neq _ _ (eq_sym X)).
          - intros X. apply att_key_inj in X. congruence. }
      * intros m Hm. unfold barebox_cand. split; intros [H1 H2]; (split; [exact H1|]);
          destruct (Hoth m H1 Hm) as [E1 E2]; unfold bb_ready in *; rewrite E1, E2 in *;
          destruct (N.eqb_spec (prio_of st m) 0); lia.
    + cbn [last]. destruct Hbt as (_ & Hr & Hmax). split; [split; auto|].
      intros c [Hc1 Hc2]. destruct (string_dec c n) as [->|Nc]; [lia|]. specialize (Hmax c Hc1 Nc Hc2). lia.
Qed.
