(** The EFI backend as an instance of the installation model (C46). *)
From Verif Require Import Base BaseLemmas Slot Image Handlers Install InstallSpec InstallProofs Efi EfiSpec EfiProofs
  InstallRun InstallRunSpec InstallRunExamples.

(** one efibootmgr call each (efi.c:561-583 r_efi_set_primary, efi.c:495-508 r_efi_set_state); the entries of all
    slots exist, so none has to be created *)
Definition efi_backend (use_bootnext : bool) : backend efi :=
  mkBackend
    (fun st s => match sl_bootname s with
                 | Some b => match efi_set_state st b false None with Ok st' => [st'] | _ => [] end
                 | None => [] end)
    (fun st s => match sl_bootname s with
                 | Some b => match efi_set_primary use_bootnext st b None with Ok st' => [st'] | _ => [] end
                 | None => [] end).

(** what the firmware may try, now or after a failure: BootNext and BootOrder *)
Definition efi_cand (st : efi) (n : string) : Prop := In n (boot_sequence st).
(** what it boots next *)
Definition efi_boots (st : efi) (n : string) : Prop := hd_error (boot_sequence st) = Some n.

(** unique entry numbers and names, no dangling numbers, no BootNext, something in BootOrder, an entry for every slot *)
Definition efi_good (slots : list slot) (st : efi) : Prop :=
  efi_wf st /\ no_stale st /\ ef_next st = None /\ NoDup (order_names st) /\ ef_order st <> [] /\
  forall s n, In s slots -> sl_bootname s = Some n -> exists num, In (num, n) (ef_entries st).

Lemma by_name_in : forall es b num, In (num, b) es -> exists e, by_name es b = Some e.
Proof.
  intros es b num H. unfold by_name. destruct (find _ es) eqn:E; [eauto|].
  exfalso. pose proof (find_none _ _ E _ H) as F. cbn in F. now rewrite String.eqb_refl in F.
Qed.

Lemma good_get : forall slots st, efi_good slots st -> exists i, efi_bootorder_get st = Ok i /\ in_all i = ef_entries st /\
  map snd (in_order i) = order_names st /\ (forall e, In e (in_order i) -> In e (ef_entries st)).
Proof.
  intros slots st (Hw & Hs & Hn & Hd & Ho & He).
  assert (ef_entries st <> []).
  { destruct (ef_order st) as [|x l] eqn:E; [congruence|]. destruct Hs as [Hs _]. specialize (Hs x). rewrite E in Hs.
    specialize (Hs (or_introl eq_refl)). intros Hx. rewrite Hx in Hs. exact Hs. }
  destruct (efi_bootorder_get st) as [i| |] eqn:Ei.
  2,3: unfold efi_bootorder_get in Ei; destruct (ef_entries st); [congruence|]; destruct (ef_order st); [congruence|discriminate].
  exists i. destruct (order_names_info _ _ Ei) as (A & B & C & D & _). auto.
Qed.

Lemma remove_name_in : forall l b m, m <> b -> (In m (remove_name l b) <-> In m l).
Proof.
  induction l as [|x l IH]; intros b m Hm; cbn; [tauto|].
  destruct (String.eqb_spec x b) as [->|Hx]; cbn; [intuition congruence|]. rewrite IH by exact Hm. tauto.
Qed.
Lemma remove_name_nodup : forall l b, NoDup l -> NoDup (remove_name l b) /\ ~ In b (remove_name l b).
Proof.
  intros l b H. rewrite remove_name_filter by exact H. split; [now apply NoDup_filter|].
  intros Hi. apply filter_In in Hi as [_ Hi]. now rewrite String.eqb_refl in Hi.
Qed.
Lemma remove_first_neq : forall es b x, In x (map snd es) -> x <> b -> remove_first es b <> [].
Proof.
  intros es b x Hx Hb E. assert (In x (map snd (remove_first es b))) as Hi
    by (rewrite remove_first_names; now apply remove_name_in).
  rewrite E in Hi. exact Hi.
Qed.

Lemma seq_order : forall st, ef_next st = None -> boot_sequence st = order_names st.
Proof. intros st H. unfold boot_sequence, next_name. now rewrite H. Qed.

Lemma efi_laws_ok : forall slots, boot_laws slots (efi_good slots) efi_cand efi_boots (efi_backend false).
Proof.
  intros slots. split; [|split; [|split]].
  - intros st n _ H. unfold efi_cand, efi_boots in *. destruct (boot_sequence st); [discriminate|]. cbn in H. injection H as ->. now left.
  - intros st n _ H. unfold efi_cand, efi_boots in *. destruct (boot_sequence st) as [|m l]; [contradiction|]. exists m. reflexivity.
  - intros st s n x G Hs Hn Hx Hc. pose proof G as (Hw & Hst & Hnx & Hd & Ho & He).
    unfold efi_cand in *. rewrite (seq_order _ Hnx) in *.
    destruct (good_get _ _ G) as (i & Ei & Ha & Hio & Hsub). destruct (He s n Hs Hn) as (num & Hnum).
    destruct (by_name_in _ _ _ Hnum) as (e & Ee).
    cbn [bk_bad efi_backend]. rewrite Hn. unfold efi_set_state, efi_modify_order, efi_prepare. rewrite Ei. cbn [bind]. rewrite Ha, Ee. cbn [bind].
    set (st' := mkEfi (ef_entries st) (map fst (remove_first (in_order i) n)) (ef_next st) (ef_current st)).
    assert (Hsub' : forall y, In y (remove_first (in_order i) n) -> In y (ef_entries st)) by (intros y Hy; apply Hsub; eapply remove_first_in; eauto).
    assert (Eo : order_names st' = remove_name (order_names st) n).
    { unfold st'. rewrite order_names_of_entries; auto. now rewrite remove_first_names, Hio. }
    destruct (remove_name_nodup (order_names st) n Hd) as [D1 D2].
    assert (Es : boot_sequence st' = remove_name (order_names st) n) by (rewrite seq_order; [exact Eo|exact Hnx]).
    assert (G' : efi_good slots st').
    { repeat split; auto.
      - intros m Hm. cbn in Hm |- *. apply in_map_iff in Hm as (y & <- & Hy). apply in_map. auto.
      - cbn. rewrite Hnx. discriminate.
      - now rewrite Eo.
      - cbn. intros E. apply map_eq_nil in E. revert E. apply remove_first_neq with x; [now rewrite Hio|exact Hx]. }
    split.
    + intros b' [<-|[]]. split; [exact G'|]. rewrite Es. split; [intros H; now apply D2 in H|].
      intros m Hm. now apply remove_name_in.
    + cbn [last]. now rewrite Es.
  - intros st s n G Hs Hn. pose proof G as (Hw & Hst & Hnx & Hd & Ho & He).
    destruct (good_get _ _ G) as (i & Ei & Ha & Hio & Hsub). destruct (He s n Hs Hn) as (num & Hnum).
    destruct (by_name_in _ _ _ Hnum) as (e & Ee). pose proof (by_name_some _ _ _ Ee) as [Ee1 Ee2].
    cbn [bk_act efi_backend]. rewrite Hn. unfold efi_set_primary, efi_modify_order, efi_prepare. rewrite Ei. cbn [bind]. rewrite Ha, Ee. cbn [bind].
    rewrite Ha, Ee.
    set (st' := mkEfi (ef_entries st) (map fst (e :: remove_first (in_order i) n)) (ef_next st) (ef_current st)).
    assert (Hsub' : forall y, In y (e :: remove_first (in_order i) n) -> In y (ef_entries st)).
    { intros y [<-|Hy]; [exact Ee1|]. apply Hsub. eapply remove_first_in; eauto. }
    assert (Eo : order_names st' = n :: remove_name (order_names st) n).
    { unfold st'. rewrite order_names_of_entries; auto. cbn [map]. now rewrite remove_first_names, Hio, Ee2. }
    destruct (remove_name_nodup (order_names st) n Hd) as [D1 D2].
    assert (Es : boot_sequence st' = n :: remove_name (order_names st) n) by (rewrite seq_order; [exact Eo|exact Hnx]).
    assert (G' : efi_good slots st').
    { repeat split; auto.
      - intros m Hm. cbn [ef_order ef_entries st'] in Hm |- *. apply in_map_iff in Hm as (y & <- & Hy). apply in_map. auto.
      - cbn. rewrite Hnx. discriminate.
      - rewrite Eo. constructor; auto.
      - cbn. discriminate. }
    split.
    + intros b' [<-|[]]. split; [exact G'|]. intros m Hm. unfold efi_cand. rewrite Es, (seq_order _ Hnx). cbn [In].
      rewrite remove_name_in by exact Hm. intuition congruence.
    + cbn [last]. unfold efi_boots. rewrite Es. reflexivity.
Qed.

(** * With BootNext (the default) a second installation, interrupted while it writes, leaves BootNext pointing to the slot *)
Definition exe_efi : efi := mkEfi [("0000", "A"); ("0001", "B")] ["0000"; "0001"] None (Some "0000").
Definition exe_w0 : world efi :=
  mkWorld (fun _ => mkStat None None) (fun _ => mkStat None None) (fun _ => Whole (Some "11")) exe_efi.
Definition exe_w1 := replay exe_w0 (snd (install (efi_backend true) exr_cf exr_both exe_w0)).
Definition exe_w2 (n : nat) := restart (replay exe_w1 (firstn n (snd (install (efi_backend true) exr_cf exr_both exe_w1)))).

Lemma exe_good : efi_good ex_tree exe_efi.
Proof.
  repeat split; try discriminate.
  - repeat constructor; cbn; intuition discriminate.
  - intros n Hn. cbn in Hn |- *. tauto.
  - repeat constructor; cbn; intuition discriminate.
  - intros s n Hs Hn. cbn in Hs. destruct Hs as [<-|[<-|[<-|[<-|[]]]]]; cbn in Hn; try discriminate; injection Hn as <-; cbn; eauto.
Qed.

Lemma exe_safe : boot_safe ex_tree (efi_good ex_tree) efi_cand efi_boots exe_w0.
Proof.
  split; [exact exe_good|]. split.
  - intros n _ s r _ _ _. cbn. discriminate.
  - exists "A". reflexivity.
Qed.

Lemma exe_proper : forall w, efi_cand (w_boot w) "A" -> proper efi_cand exr_cf exr_both w.
Proof.
  intros w Hc. split.
  - exists (fun d => d), "A", exR0, "A". repeat split; try reflexivity; try (left; reflexivity); exact Hc.
  - intros ps Hps. assert (W : written ps = [exR1; exP1]).
    { vm_compute in Hps. apply Ok_inj in Hps. subst ps. reflexivity. }
    rewrite W. intros s r Hs (Hr & Hp & Hsr) Hn. cbn [cf_slots exr_cf] in *.
    cbn in Hs, Hr.
    destruct Hs as [<-|[<-|[<-|[<-|[]]]]]; destruct Hr as [<-|[<-|[<-|[<-|[]]]]];
      cbn in Hp; try discriminate; destruct Hsr as [[E1 E2]|E1]; cbn in E1; try discriminate;
      try (exfalso; apply Hn; reflexivity);
      split; intros HH; try (intros _); cbn in HH |- *; intuition (try congruence).
  all: discriminate.
Qed.

Lemma c46_efi_bootnext_refuted :
  exists w0 w, boot_safe ex_tree (efi_good ex_tree) efi_cand efi_boots w0 /\
    status_true ex_tree w0 /\ proper_life efi_cand (efi_backend true) exr_cf w0 w /\
    efi_boots (w_boot w) "B" /\ ~ intact ex_tree w "B".
Proof.
  exists exe_w0, (exe_w2 4). split; [exact exe_safe|]. split; [intros s d _ [H|H]; discriminate H|].
  split.
  { apply plife_crash; [|apply exe_proper; cbn; auto]. apply plife_install; [constructor|apply exe_proper; cbn; auto]. }
  split; [reflexivity|]. intros H. apply (H exR1 exR1); [cbn; auto 8| |reflexivity|reflexivity].
  split; [cbn; auto|]. split; [reflexivity|]. left. split; reflexivity.
Qed.
