(** The theorems about artifact repositories. *)
From Coq Require Import Permutation.
From Verif Require Import Base BaseLemmas KeyFile KeyFileLemmas Artifacts ArtifactsSpec ArtifactsProofs ArtifactsCrash ArtifactsPrepare.

Lemma last_image_snoc l i n : last_image (l ++ [i]) n = if String.eqb (i_name i) n then Some i else last_image l n.
Proof. unfold last_image. rewrite rev_app_distr. cbn [rev app find]. reflexivity. Qed.

(** ** The table under the operations *)
Record one (T : table) : Prop := mk_one {
  o_le : forall a, In a T -> a_refs a <= 1;
  o_uniq : forall a b, In a T -> In b T -> a_name a = a_name b -> a_refs a <> 0 -> a_refs b <> 0 -> a = b
}.

Lemma one_incl T T' : incl T' T -> one T -> one T'.
Proof. intros H [A B]. constructor; auto. Qed.

Lemma chosen_one T n a : one T -> In a T -> a_name a = n -> a_refs a <> 0 -> chosen T n = Some a.
Proof.
  intros HO Ha Hn Hr. unfold chosen.
  destruct (find enabled (filter (fun a0 => String.eqb (a_name a0) n) T)) as [b|] eqn:E.
  - destruct (chosen_spec T n b E) as (Hb & Hbn & Hbr). f_equal. apply (o_uniq _ HO); auto. congruence.
  - apply (find_none _ _) with (x := a) in E.
    + unfold enabled in E. apply negb_false_iff, Nat.eqb_eq in E. contradiction.
    + apply filter_In. split; [exact Ha|]. now apply String.eqb_eq.
Qed.

Lemma forget_in keep T b : In b (forget_old keep T) <->
  exists a, In a T /\ b = if existsb (String.eqb (a_name a)) keep then a else mkart (a_name a) (a_digest a) 0.
Proof. unfold forget_old. rewrite in_map_iff. split; intros (a & X & Y); exists a; auto. Qed.

Lemma existsb_in x l : existsb (String.eqb x) l = true <-> In x l.
Proof.
  rewrite existsb_exists. split; [intros (y & H & E); apply String.eqb_eq in E; now subst|].
  intros H. exists x. split; [exact H|apply String.eqb_refl].
Qed.

Lemma forget_enab keep T n g : enab (forget_old keep T) n g <-> In n keep /\ enab T n g.
Proof.
  unfold enab. split.
  - intros (b & Hb & Hn & Hg & Hr). apply forget_in in Hb. destruct Hb as (a & Ha & ->).
    destruct (existsb (String.eqb (a_name a)) keep) eqn:E; [|cbn in Hr; congruence].
    apply existsb_in in E. split; [now rewrite <- Hn|]. exists a. auto.
  - intros (Hk & a & Ha & Hn & Hg & Hr). exists a. split; [|auto]. apply forget_in. exists a. split; [exact Ha|].
    rewrite <- Hn in Hk. apply existsb_in in Hk. now rewrite Hk.
Qed.

Lemma forget_one keep T : one T -> one (forget_old keep T).
Proof.
  intros [A B]. constructor.
  - intros b Hb. apply forget_in in Hb. destruct Hb as (a & Ha & ->). destruct (existsb _ keep); cbn; [now apply A|lia].
  - intros b b' Hb Hb' En Hr Hr'. apply forget_in in Hb, Hb'. destruct Hb as (a & Ha & ->), Hb' as (a' & Ha' & ->).
    destruct (existsb (String.eqb (a_name a)) keep); [|cbn in Hr; congruence].
    destruct (existsb (String.eqb (a_name a')) keep); [|cbn in Hr'; congruence]. now apply B.
Qed.

Lemma activate_in n g T b : In b (activate n g T) <->
  exists a, In a T /\ b = if String.eqb (a_name a) n then if String.eqb (a_digest a) g then mkart (a_name a) (a_digest a) (Nat.max 1 (a_refs a))
                          else mkart (a_name a) (a_digest a) (a_refs a - 1) else a.
Proof. unfold activate. rewrite in_map_iff. split; intros (a & X & Y); exists a; auto. Qed.

Lemma activate_enab n g T m h : one T -> listed T n g ->
  (enab (activate n g T) m h <-> (m = n /\ h = g) \/ (m <> n /\ enab T m h)).
Proof.
  intros HO (a0 & Ha0 & Hn0 & Hg0). split.
  - intros (b & Hb & Hm & Hh & Hr). apply activate_in in Hb. destruct Hb as (a & Ha & ->).
    destruct (String.eqb_spec (a_name a) n) as [E|E].
    + destruct (String.eqb_spec (a_digest a) g) as [E'|E'].
      * left. cbn in Hm, Hh. split; congruence.
      * exfalso. cbn in Hr. pose proof (o_le _ HO a Ha). lia.
    + right. split; [congruence|]. exists a. auto.
  - intros [[-> ->]|[Hm (a & Ha & Hn & Hg & Hr)]].
    + exists (mkart n g (Nat.max 1 (a_refs a0))). split; [|cbn [a_name a_digest a_refs]; repeat split; destruct (a_refs a0); discriminate]. apply activate_in. exists a0. split; [exact Ha0|].
      rewrite Hn0, Hg0, !String.eqb_refl. reflexivity.
    + exists a. split; [|auto]. apply activate_in. exists a. split; [exact Ha|]. destruct (String.eqb_spec (a_name a) n); [congruence|reflexivity].
Qed.

Lemma activate_one n g T : one T -> NoDup (map akey T) -> one (activate n g T).
Proof.
  intros HO ND. pose proof HO as [A B]. constructor.
  - intros b Hb. apply activate_in in Hb. destruct Hb as (a & Ha & ->). pose proof (A a Ha).
    destruct (String.eqb (a_name a) n); [destruct (String.eqb (a_digest a) g)|]; cbn [a_refs]; lia.
  - intros b b' Hb Hb' En Hr Hr'. apply activate_in in Hb, Hb'. destruct Hb as (a & Ha & ->), Hb' as (a' & Ha' & ->).
    pose proof (A a Ha). pose proof (A a' Ha').
    destruct (String.eqb_spec (a_name a) n) as [E1|E1], (String.eqb_spec (a_name a') n) as [E2|E2].
    + destruct (String.eqb_spec (a_digest a) g) as [E3|E3]; [|cbn in Hr; lia].
      destruct (String.eqb_spec (a_digest a') g) as [E4|E4]; [|cbn in Hr'; lia].
      assert (a = a').
      { clear - Ha Ha' ND E1 E2 E3 E4. assert (akey a = akey a') by (unfold akey; congruence).
        induction T as [|x T IH]; [destruct Ha|]. cbn [map] in ND. inversion ND; subst.
        destruct Ha as [->|Ha], Ha' as [->|Ha']; auto.
        - exfalso. apply H2. rewrite H. now apply in_map.
        - exfalso. apply H2. rewrite <- H. now apply in_map. }
      now subst.
    + exfalso. destruct (String.eqb (a_digest a) g); cbn in En; congruence.
    + exfalso. destruct (String.eqb (a_digest a') g); cbn in En; congruence.
    + now apply B.
Qed.

Lemma enab_perm T T' n g : Permutation T' T -> enab T' n g <-> enab T n g.
Proof.
  intros H. unfold enab. split; intros (a & Ha & X); exists a; split; auto.
  - now apply (Permutation_in _ H).
  - now apply (Permutation_in _ (Permutation_sym H)).
Qed.

Lemma one_perm T T' : Permutation T' T -> one T -> one T'.
Proof. intros H. apply one_incl. intros a. now apply Permutation_in. Qed.

Section plans.
Variable ord : order.
Hypothesis ord_perm : forall T, Permutation (ord T) T.

Lemma plan_table_spec keep T i : one T -> NoDup (map akey T) ->
  one (plan_table ord keep T i) /\ NoDup (map akey (plan_table ord keep T i)) /\
  forall n g, enab (plan_table ord keep T i) n g <->
    (n = i_name i /\ g = i_digest i) \/ (n <> i_name i /\ In n keep /\ enab T n g).
Proof.
  intros HO ND. unfold plan_table. set (T1 := forget_old keep T).
  assert (HO1 : one T1) by now apply forget_one.
  assert (ND1 : NoDup (map akey T1)) by (unfold T1; now rewrite forget_keys).
  destruct (art_find T1 (i_name i) (i_digest i)) as [a|] eqn:E.
  - apply find_some_key in E. destruct E as [Ha Hk]. unfold akey in Hk. injection Hk as Hn Hg.
    split; [now apply activate_one|]. split; [now rewrite activate_keys|].
    intros n g. rewrite activate_enab; [|exact HO1|exists a; auto]. unfold T1. rewrite forget_enab. reflexivity.
  - apply find_none_key in E. set (T2 := T1 ++ [mkart (i_name i) (i_digest i) 0]).
    assert (HO2 : one T2).
    { destruct HO1 as [A B]. constructor.
      - intros b Hb. apply in_app_or in Hb. destruct Hb as [Hb|[<-|[]]]; [now apply A|cbn; lia].
      - intros b b' Hb Hb' En Hr Hr'. apply in_app_or in Hb, Hb'.
        destruct Hb as [Hb|[<-|[]]]; [|cbn in Hr; congruence]. destruct Hb' as [Hb'|[<-|[]]]; [|cbn in Hr'; congruence]. now apply B. }
    assert (ND2 : NoDup (map akey T2)).
    { unfold T2. rewrite map_app. cbn [map]. apply (Permutation_NoDup (l := (i_name i, i_digest i) :: map akey T1)); [apply Permutation_cons_append|].
      now constructor. }
    assert (HO3 : one (ord T2)) by (eapply one_perm; [apply ord_perm|exact HO2]).
    assert (ND3 : NoDup (map akey (ord T2))) by (eapply Permutation_NoDup; [apply Permutation_map, Permutation_sym, ord_perm|exact ND2]).
    split; [now apply activate_one|]. split; [now rewrite activate_keys|].
    intros n g. rewrite activate_enab; [|exact HO3|].
    2:{ exists (mkart (i_name i) (i_digest i) 0). split; [|auto]. apply (Permutation_in _ (Permutation_sym (ord_perm T2))). apply in_or_app. right. now left. }
    rewrite (enab_perm _ _ _ _ (ord_perm T2)).
    assert (HE : enab T2 n g <-> enab T1 n g).
    { unfold enab, T2. split; intros (b & Hb & X); exists b; split; auto; [|apply in_or_app; now left].
      apply in_app_or in Hb. destruct Hb as [Hb|[<-|[]]]; [exact Hb|]. cbn in X. destruct X as (_ & _ & X). congruence. }
    rewrite HE. unfold T1. rewrite forget_enab. reflexivity.
Qed.

Lemma last_image_in imgs n j : last_image imgs n = Some j -> In j imgs /\ i_name j = n.
Proof.
  unfold last_image. intros H. apply find_some in H. destruct H as [H E]. apply String.eqb_eq in E.
  split; [now apply in_rev|exact E].
Qed.

Lemma plans_table_spec keep imgs : (forall i, In i imgs -> In (i_name i) keep) -> forall T, one T -> NoDup (map akey T) ->
  one (fold_left (plan_table ord keep) imgs T) /\ NoDup (map akey (fold_left (plan_table ord keep) imgs T)) /\
  forall n g, enab (fold_left (plan_table ord keep) imgs T) n g <->
    match last_image imgs n with
    | Some i => g = i_digest i
    | None => enab T n g /\ (imgs = [] \/ In n keep)
    end.
Proof.
  induction imgs as [|i imgs IH] using rev_ind; intros HK T HO ND.
  - cbn [fold_left]. split; [exact HO|]. split; [exact ND|]. intros n g. unfold last_image. cbn [rev find]. tauto.
  - rewrite fold_left_app. cbn [fold_left]. destruct (IH (fun j Hj => HK j (in_or_app _ _ _ (or_introl Hj))) T HO ND) as (A & B & C).
    destruct (plan_table_spec keep _ i A B) as (A' & B' & C'). split; [exact A'|]. split; [exact B'|].
    intros n g. rewrite C', last_image_snoc, C. destruct (String.eqb_spec (i_name i) n) as [E|E].
    + split; [intros [[_ K]|[K _]]; [exact K|congruence]|]. intros ->. left. auto.
    + assert (E' : n <> i_name i) by congruence. assert (Hnn : imgs ++ [i] <> []) by (destruct imgs; discriminate).
      destruct (last_image imgs n) as [j|] eqn:Ej; [|tauto].
      split; [tauto|]. intros ->. right. split; [congruence|]. split; [|reflexivity].
      destruct (last_image_in _ _ _ Ej) as [Hj <-]. apply HK, in_or_app. now left.
Qed.
End plans.

(** ** The whole run *)
Section whole.
Variable good : string -> string -> content -> Prop.
Variable d0 : dir.
Variable live : Prop.
Variable imgs : list image.
Notation hoare := (hoare good d0 live (map i_name imgs) imgs).
Notation G := (G good d0 (map i_name imgs) imgs).

Lemma hoare_links {A} (Pre : asrt) (m : M A) (Post : A -> asrt) :
  (forall L, hoare (fun d P => Pre d P /\ forall l, lview d l = L l) m Post) -> hoare Pre m Post.
Proof. intros H s HG HP. apply (H (lview (s_dir s)) s HG). auto. Qed.

Lemma start_G env : repo_ok good d0 -> G (start d0 env).
Proof.
  intros H. apply (repo_ok_safe good d0 (map i_name imgs) imgs) in H. destruct H as [ND HS]. constructor; cbn [start s_dir s_ops].
  - reflexivity.
  - intros p q E. symmetry in E. apply app_eq_nil in E. destruct E as [-> _]. exact HS.
  - exact ND.
Qed.

Variable w1 w2 : world.
Variable ord : order.
Hypothesis ord_perm : forall T, Permutation (ord T) T.
Hypothesis Hrepo : repo_ok good d0.
Hypothesis Hopen : open_good good w1 d0.
Hypothesis live1 : live -> (forall k, w_open w1 k <> None) /\ (forall k, w_open w2 k <> None) /\ no_stale d0.

Lemma start_base : base live (ord (scan d0)) d0 (on_disk d0) /\ keepable good w1 (ord (scan d0)) d0 (on_disk d0).
Proof.
  assert (HT : tab live (scan d0) d0).
  { apply (scan_tab good); [exact Hrepo|]. intros Hl. apply live1 in Hl. now destruct Hl as (_ & _ & Hl). }
  split.
  - constructor.
    + apply (tab_keys live (scan d0)); [|exact HT]. now apply Permutation_map.
    + intros l t K. now symmetry.
    + intros a Ha. apply (scan_refd good d0 Hrepo a). now apply (Permutation_in _ (ord_perm _)).
    + intros l t v E K. unfold on_disk in K. congruence.
  - intros a Ha Hor. apply (Permutation_in _ (ord_perm _)) in Ha. destruct Hor as [Hr|Ho].
    + now apply (scan_ok good).
    + left. intros v K. unfold on_disk in K. destruct (t_in _ _ _ HT a Ha) as (_ & _ & c & X). exists c.
      split; [congruence|]. now apply (Hopen _ _ _ Ho).
Qed.

Lemma scan_cov : cov d0 (map i_name imgs) imgs (scan d0).
Proof.
  pose proof (ro_nodup _ _ Hrepo) as ND. constructor.
  - intros Hns a Ha Hr. left. apply (scan_refs d0 a ND Ha) in Hr. destruct Hr as (l & Hl & Hp).
    apply scan_in in Ha. destruct Ha as [Ha _]. unfold akey in Ha. apply keys_of_in in Ha. destruct Ha as [Hg Ha].
    apply assoc_some_key in Ha. destruct (ro_art _ _ Hrepo _ _ Hg Ha) as [Y _].
    destruct (ro_link _ _ Hrepo l _ _ Hl Hg Hp) as [->| ->]; [exact Hp|]. unfold points in Hp. rewrite (Hns _ Y) in Hp. discriminate.
  - intros Hns n (Hn & g & Hg & Hp) _. destruct (ro_good _ _ Hrepo n g Hn Hg Hp) as (c & Hc & _).
    assert (K : In (n, g) (map akey (scan d0))).
    { rewrite scan_keys. apply keys_of_in. split; [exact Hg|]. apply assoc_some_key. congruence. }
    apply in_map_iff in K. destruct K as (a & E & Ha). unfold akey in E. injection E as E1 E2. exists a. split; [exact Ha|]. split; [exact E1|].
    apply (scan_refs d0 a ND Ha). exists n. split; [now apply valid_visible|]. now rewrite E1, E2.
Qed.

Lemma cov_prune T T1 : incl T1 T -> (forall a, In a T -> a_refs a <> 0 -> In a T1) -> cov d0 (map i_name imgs) imgs T -> cov d0 (map i_name imgs) imgs T1.
Proof.
  intros H1 H2 [A B]. constructor.
  - intros Hns a Ha. apply (A Hns). now apply H1.
  - intros Hns n Hw Hk. destruct (B Hns n Hw Hk) as (a & Ha & X & Hr). exists a. auto.
Qed.

Lemma install_run_ok : Forall (image_good good) imgs ->
  hoare (fun d P => d = d0 /\ forall k v, P k v <-> on_disk d0 k v) (install_run w1 w2 ord imgs)
    (fun T d P => base live T d P /\ (forall a, In a T -> okP good d P a) /\ tidy d /\
       exists T1, incl T1 (scan d0) /\ (forall a, In a (scan d0) -> a_refs a <> 0 -> In a T1) /\ NoDup (map akey T1) /\
       let T2 := fold_left (plan_table ord (map i_name imgs)) imgs T1 in
       incl T T2 /\ (forall a, In a T2 -> a_refs a <> 0 -> In a T) /\
       (imgs <> [] -> forall n, In n (map a_name T2) -> lview d n = option_map apth (chosen T2 n))).
Proof.
  intros HF. unfold install_run.
  apply hoare_bind with (Mid := fun T d P => T = scan d0 /\ d = d0 /\ forall k v, P k v <-> on_disk d0 k v).
  { unfold prepareM. apply hoare_get. intros d1 s HG [E1 [E2 E3]]. rewrite E2, (prepare_scan good d0 Hrepo). rewrite E2 in E1. auto 10. }
  intros T0. intros s HG [-> HP]. revert s HG HP.
  enough (HH : hoare (fun d P => d = d0 /\ forall k v, P k v <-> on_disk d0 k v)
    (run T1 <- prune w1 (ord (scan d0)) ;; run T2 <- handle_plans w1 ord (map i_name imgs) T1 imgs ;; prune w2 T2)
    (fun T d P => base live T d P /\ (forall a, In a T -> okP good d P a) /\ tidy d /\
       exists T1, incl T1 (scan d0) /\ (forall a, In a (scan d0) -> a_refs a <> 0 -> In a T1) /\ NoDup (map akey T1) /\
       let T2 := fold_left (plan_table ord (map i_name imgs)) imgs T1 in
       incl T T2 /\ (forall a, In a T2 -> a_refs a <> 0 -> In a T) /\
       (imgs <> [] -> forall n, In n (map a_name T2) -> lview d n = option_map apth (chosen T2 n)))) by exact HH.
  apply hoare_bind with (Mid := fun T d P => I1 good live T d P /\ refd T P /\ ldur d P /\
      incl T (scan d0) /\ (forall a, In a (scan d0) -> a_refs a <> 0 -> In a T)).
  { apply hoare_links. intros L.
    apply hoare_post with (Post' := fun T d P => base live T d P /\ (forall a, In a T -> okP good d P a) /\ tidy d /\ (forall l, lview d l = L l) /\
                       incl T (ord (scan d0)) /\ forall a, In a (ord (scan d0)) -> a_refs a <> 0 -> In a T).
    - apply hoare_pre with (2 := prune_ok good d0 live (map i_name imgs) imgs w1 L (fun Hl => proj1 (live1 Hl)) (ord (scan d0))).
      intros d P [[-> HP] HL] _. destruct start_base as [A B]. split; [|split; [|exact HL]].
      + destruct A as [A1 A2 A3 A4]. constructor; auto.
        * intros l t K. apply A2. now apply HP.
        * intros a Ha K. apply A3; [exact Ha|]. now apply HP.
        * intros l t v E K. apply (A4 l t v E). now apply HP.
      + intros a Ha Hor. destruct (B a Ha Hor) as [X|X]; [left|right; exact X]. intros v K. apply X. now apply HP.
    - intros T d P (A & B & C & _ & D & E) _. split.
      + destruct A as [A1 A2 A3 A4]. constructor; auto.
      + split; [apply A|]. split; [apply A|]. split.
        * intros a Ha. apply (Permutation_in _ (ord_perm _)). now apply D.
        * intros a Ha Hr. apply E; [|exact Hr]. now apply (Permutation_in _ (Permutation_sym (ord_perm _))). }
  intros T1.
  apply hoare_bind with (Mid := fun T d P => (T = fold_left (plan_table ord (map i_name imgs)) imgs T1 /\ I1 good live T d P /\ refd T P /\ ldur d P /\ (imgs <> [] -> linked T d)) /\
      incl T1 (scan d0) /\ (forall a, In a (scan d0) -> a_refs a <> 0 -> In a T1) /\ NoDup (map akey T1)).
  { intros s HG (A & B & C & D & E).
    pose proof (handle_plans_ok good d0 live (map i_name imgs) imgs w1 ord ord_perm imgs HF (incl_refl _) T1 (cov_prune _ _ D E scan_cov) s HG (conj A (conj B C))) as X.
    destruct (handle_plans w1 ord (map i_name imgs) T1 imgs s) as [[T| |] s'].
    - destruct X as (X1 & X2 & X3). split; [exact X1|]. split; [|exact X3]. split; [exact X2|]. split; [exact D|]. split; [exact E|]. apply A.
    - exact X.
    - exact X. }
  intros T2. apply hoare_links. intros L s HG [[(A & B & C & D & E) (F & G1 & H)] HL].
  pose proof (prune_ok good d0 live (map i_name imgs) imgs w2 L (fun Hl => proj1 (proj2 (live1 Hl))) T2 s HG) as X.
  assert (Hpre : base live T2 (s_dir s) (PS d0 s) /\ keepable good w2 T2 (s_dir s) (PS d0 s) /\ (forall l, lview (s_dir s) l = L l)).
  { split; [|split; [|exact HL]].
    - destruct B as [B1 B2 B3 B4]. constructor; auto.
    - intros a Ha _. now apply (i_ok _ _ _ _ _ B). }
  specialize (X Hpre). destruct (prune w2 T2 s) as [[T| |] s'].
  - destruct X as (X1 & (Y1 & Y2 & Y3 & Y4 & Y5 & Y6) & X3). split; [exact X1|]. split; [|exact X3].
    split; [exact Y1|]. split; [exact Y2|]. split; [exact Y3|]. exists T1. split; [exact F|]. split; [exact G1|]. split; [exact H|].
    rewrite <- A. split; [exact Y5|]. split; [exact Y6|]. intros Hne n Hn. rewrite Y4, <- HL. unfold lview. rewrite (E Hne n Hn).
    now destruct (chosen T2 n).
  - exact X.
  - exact X.
Qed.
End whole.

(** ** C40 *)
Lemma run_facts good d w1 w2 ord imgs env r s (live : Prop) :
  repo_ok good d -> (forall T, Permutation (ord T) T) -> Forall (image_good good) imgs -> open_good good w1 d ->
  (live -> (forall k, w_open w1 k <> None) /\ (forall k, w_open w2 k <> None) /\ no_stale d) ->
  install_run w1 w2 ord imgs (start d env) = (r, s) ->
  G good d (map i_name imgs) imgs s /\ r <> Abort /\ (env = [] -> live -> exists T, r = Ok T) /\
  forall T, r = Ok T -> base live T (s_dir s) (PS d s) /\ (forall a, In a T -> okP good (s_dir s) (PS d s) a) /\ tidy (s_dir s) /\
       exists T1, incl T1 (scan d) /\ (forall a, In a (scan d) -> a_refs a <> 0 -> In a T1) /\ NoDup (map akey T1) /\
       let T2 := fold_left (plan_table ord (map i_name imgs)) imgs T1 in
       incl T T2 /\ (forall a, In a T2 -> a_refs a <> 0 -> In a T) /\
       (imgs <> [] -> forall n, In n (map a_name T2) -> lview (s_dir s) n = option_map apth (chosen T2 n)).
Proof.
  intros Hr Ho HF Hop Hl Hrun.
  pose proof (install_run_ok good d live imgs w1 w2 ord Ho Hr Hop Hl HF (start d env) (start_G good d imgs env Hr)) as X.
  cbn [start s_dir] in X. specialize (X (conj eq_refl (fun k v => iff_refl _))).
  fold (start d env) in X. rewrite Hrun in X. destruct r as [T| |].
  - destruct X as (X1 & X2 & _). split; [exact X1|]. split; [discriminate|]. split; [eauto|]. intros T' E. apply Ok_inj in E. subst T'. exact X2.
  - destruct X as (X1 & X2). split; [exact X1|]. split; [discriminate|]. split; [|discriminate]. intros E Hlv. now apply X2 in Hlv.
  - destruct X.
Qed.

Lemma crash_safe good d keep imgs s c : G good d keep imgs s -> crash d (s_ops s) c -> NoDup (map fst c) /\ safe good d keep imgs (on_disk c).
Proof.
  intros HG (p & q & E & ND & H). split; [exact ND|].
  apply (safe_sub good d keep imgs (poss_ops p d (on_disk d))); [|now apply (G_safe _ _ _ _ _ HG p q)].
  intros k v ->. apply H.
Qed.

Lemma c40_crash_ok : forall good d c, repo_ok good d -> after_run good d c -> repo_ok good c.
Proof.
  intros good d c Hr [w1 w2 ord imgs env r s c' Ho HF Hop Hrun Hc].
  destruct (run_facts good d w1 w2 ord imgs env r s False Hr Ho HF Hop) as (HG & _); [intros []|exact Hrun|].
  destruct (crash_safe _ _ _ _ _ _ HG Hc) as [ND HS]. now apply (safe_repo_ok good d _ _ c' ND HS).
Qed.

Lemma c40_history_ok : forall good d c n g,
  repo_ok good d -> history good d c ->
  repo_ok good c /\
  (valid_name n -> hex_digest g -> points c n n g ->
   exists x, assoc (apath n g) c = Some (EData x) /\ good n g x).
Proof.
  intros good d c n g Hr Hh.
  assert (Hc : repo_ok good c).
  { induction Hh as [|c c' _ IH Hrun]; [exact Hr|]. now apply (c40_crash_ok good c). }
  split; [exact Hc|]. intros Hn Hg. now apply (ro_good _ _ Hc).
Qed.

Lemma app_inv_l_s a x y : (a ++ x)%string = (a ++ y)%string -> x = y.
Proof. induction a as [|b a IH]; cbn; [auto|]. intros H. apply IH. congruence. Qed.

Lemma apath_inv_r n g g' : apath n g = apath n g' -> g = g'.
Proof. unfold apath. intros H. apply app_inv_l_s, app_inv_l_s, app_inv_l_s in H. exact H. Qed.

Lemma c40_old_or_new_ok : forall good d w1 w2 ord imgs env r s c n g,
  repo_ok good d -> no_stale d -> (forall T, Permutation (ord T) T) ->
  Forall (image_good good) imgs -> open_good good w1 d ->
  install_run w1 w2 ord imgs (start d env) = (r, s) -> crash d (s_ops s) c ->
  valid_name n -> hex_digest g -> points d n n g ->
  (In n (map i_name imgs) -> assoc n c <> None) /\
  (assoc n c <> None ->
   exists g', points c n n g' /\
     (g' = g \/ exists i, In i imgs /\ i_name i = n /\ i_digest i = g') /\
     exists x, assoc (apath n g') c = Some (EData x) /\ good n g' x).
Proof.
  intros good d w1 w2 ord imgs env r s c n g Hr Hns Ho HF Hop Hrun Hc Hn Hg Hp.
  destruct (run_facts good d w1 w2 ord imgs env r s False Hr Ho HF Hop) as (HG & _); [intros []|exact Hrun|].
  destruct (crash_safe _ _ _ _ _ _ HG Hc) as [ND HS].
  assert (HN : new d (map i_name imgs) imgs n (assoc n c)).
  { apply (s_vis _ _ _ _ _ HS Hns); [|reflexivity]. split; [exact Hn|]. exists g. auto. }
  split.
  - intros Hin E. rewrite E in HN. destruct HN as [[_ K]|(g' & K & _)]; [contradiction|discriminate].
  - intros Hne. destruct HN as [[K _]|(g' & K & Hor)]; [contradiction|]. exists g'. split; [exact K|].
    assert (Hor' : g' = g \/ exists i, In i imgs /\ i_name i = n /\ i_digest i = g').
    { destruct Hor as [X|X]; [left|now right]. unfold points in X, Hp. apply (apath_inv_r n). congruence. }
    split; [exact Hor'|].
    assert (Hg' : hex_digest g').
    { destruct Hor' as [->|(i & Hi & _ & <-)]; [exact Hg|]. rewrite Forall_forall in HF. now destruct (HF i Hi) as (_ & X & _). }
    apply (ro_good good c (safe_repo_ok good d _ _ c ND HS) n g' Hn Hg' K).
Qed.

Lemma scan_one good d : repo_ok good d -> no_stale d -> one (scan d).
Proof.
  intros Hr Hns. pose proof (ro_nodup _ _ Hr) as ND.
  assert (HL : forall a, In a (scan d) -> valid_name (a_name a) /\ hex_digest (a_digest a)).
  { intros a Ha. apply scan_in in Ha. destruct Ha as [Ha _]. unfold akey in Ha. apply keys_of_in in Ha. destruct Ha as [Hg Ha].
    apply assoc_some_key in Ha. destruct (ro_art _ _ Hr _ _ Hg Ha) as [Y _]. auto. }
  assert (HP : forall a l, In a (scan d) -> visible l -> points d l (a_name a) (a_digest a) -> l = a_name a).
  { intros a l Ha Hl Hp. destruct (HL a Ha) as [Y Hg]. destruct (ro_link _ _ Hr l _ _ Hl Hg Hp) as [->| ->]; [reflexivity|].
    unfold points in Hp. rewrite (Hns _ Y) in Hp. discriminate. }
  constructor.
  - intros a Ha. pose proof (scan_in _ _ Ha) as [_ ->]. unfold count.
    assert (K : forall ke, In ke (filter (hits (akey a)) d) -> fst ke = a_name a).
    { intros [k e] Hk. apply filter_In in Hk. destruct Hk as [Hin Hh]. unfold akey in Hh. apply hits_spec in Hh. destruct Hh as (V & _ & ->).
      apply (HP a k Ha V). now apply assoc_nodup_in. }
    assert (ND' : NoDup (map fst (filter (hits (akey a)) d))).
    { clear - ND. induction d as [|[k e] d IH]; [constructor|]. cbn [map fst filter] in *. inversion ND as [|? ? H1 H2]; subst.
      destruct (hits (akey a) (k, e)); [|now apply IH]. cbn [map fst]. constructor; [|now apply IH].
      intros X. apply H1. apply in_map_iff in X. destruct X as (y & <- & Hy). apply filter_In in Hy. now apply in_map. }
    destruct (filter (hits (akey a)) d) as [|x [|y l]]; [cbn; lia|cbn; lia|].
    exfalso. cbn [map] in ND'. inversion ND' as [|? ? H1 _]; subst. apply H1. left.
    rewrite (K x), (K y); [reflexivity|right; now left|now left].
  - intros a b Ha Hb En Hra Hrb. apply (scan_refs d a ND Ha) in Hra. apply (scan_refs d b ND Hb) in Hrb.
    destruct Hra as (l & Hl & Hp), Hrb as (m & Hm & Hq). rewrite (HP a l Ha Hl Hp) in Hp. rewrite (HP b m Hb Hm Hq) in Hq.
    rewrite En in Hp. unfold points in Hp, Hq. assert (E : a_digest a = a_digest b) by (apply (apath_inv_r (a_name b)); congruence).
    destruct (HL a Ha). apply (tab_uniq False (scan d) d a b); auto; [|unfold akey; congruence].
    apply (scan_tab good); [exact Hr|intros []].
Qed.

Lemma c40_success_ok : forall good d w1 w2 ord imgs env T s c n g,
  repo_ok good d -> no_stale d -> (forall T, Permutation (ord T) T) ->
  Forall (image_good good) imgs -> imgs <> [] -> open_good good w1 d ->
  install_run w1 w2 ord imgs (start d env) = (Ok T, s) ->
  (forall k, poss_ops (s_ops s) d (on_disk d) k (assoc k c)) ->
  valid_name n -> hex_digest g ->
  (points c n n g <-> exists i, last_image imgs n = Some i /\ i_digest i = g) /\
  (points c n n g -> exists x, assoc (apath n g) c = Some (EData x) /\ good n g x).
Proof.
  intros good d w1 w2 ord imgs env T s c n g Hr Hns Ho HF Hne Hop Hrun Hc Hn Hg.
  destruct (run_facts good d w1 w2 ord imgs env (Ok T) s False Hr Ho HF Hop) as (HG & _ & _ & HT); [intros []|exact Hrun|].
  destruct (HT T eq_refl) as (HB & _ & _ & T1 & HI1 & HE1 & ND1 & HI2 & HE2 & HL). clear HT.
  set (T2 := fold_left (plan_table ord (map i_name imgs)) imgs T1) in *.
  pose proof (G_now _ _ _ _ _ HG) as HS.
  assert (HO1 : one T1) by (apply (one_incl (scan d)); [exact HI1|now apply (scan_one good)]).
  destruct (plans_table_spec ord Ho (map i_name imgs) imgs (fun i Hi => in_map _ _ _ Hi) T1 HO1 ND1) as (HO2 & ND2 & HEn). fold T2 in HO2, ND2, HEn.
  specialize (HL Hne).
  assert (HC : points c n n g -> lview (s_dir s) n = Some (apath n g) /\ forall v, PS d s (apath n g) v -> exists x, v = Some (EData x) /\ good n g x).
  { intros Hp. unfold points in Hp. pose proof (Hc n) as K. rewrite Hp in K. split.
    - apply (b_set _ _ _ _ HB) in K. unfold lview. now rewrite K.
    - intros v Kv. now apply (s_good _ _ _ _ _ HS n g Hn Hg). }
  split.
  - split.
    + intros Hp. destruct (HC Hp) as [Hlv Hgd].
      destruct (Hgd _ (G_cur _ _ _ _ _ HG (apath n g))) as (x & Hx & _).
      assert (Hin : In (n, g) (map akey T2)).
      { assert (K : In (n, g) (map akey T)) by (apply (t_all _ _ _ (b_tab _ _ _ _ HB) n g Hg); congruence).
        apply in_map_iff in K. destruct K as (a & E & Ha). rewrite <- E. apply in_map, HI2, Ha. }
      assert (Hnin : In n (map a_name T2)).
      { apply in_map_iff in Hin. destruct Hin as (a & E & Ha). unfold akey in E. injection E as <- _. now apply in_map. }
      rewrite (HL n Hnin) in Hlv. destruct (chosen T2 n) as [a|] eqn:Ech; [|discriminate]. cbn [option_map] in Hlv.
      destruct (chosen_spec _ _ _ Ech) as (Ha & Han & Har).
      assert (E : a_digest a = g). { apply (apath_inv_r n). unfold apth in Hlv. rewrite Han in Hlv. congruence. }
      assert (He : enab T2 n g) by (exists a; auto).
      apply HEn in He. destruct (last_image imgs n) as [i|] eqn:El; [exists i; auto|].
      destruct He as [_ [He|He]]; [contradiction|]. exfalso.
      unfold last_image in El. apply in_map_iff in He. destruct He as (i & Ei & Hi).
      apply (find_none _ _ El i) in Hi || (apply in_rev in Hi; apply (find_none _ _ El i) in Hi).
      rewrite Ei, String.eqb_refl in Hi. discriminate.
    + intros (i & Hi & Hig).
      assert (He : enab T2 n g) by (apply HEn; rewrite Hi; now symmetry).
      destruct He as (a & Ha & Han & Hag & Har).
      pose proof (HL n) as X. rewrite (chosen_one T2 n a HO2 Ha Han Har) in X. cbn [option_map] in X.
      assert (Hnin : In n (map a_name T2)) by (rewrite <- Han; now apply in_map). specialize (X Hnin).
      unfold lview in X. destruct (assoc n (s_dir s)) as [[t|]|] eqn:En; [|discriminate|discriminate].
      assert (Et : t = apath n g). { unfold apth in X. rewrite Han, Hag in X. congruence. }
      unfold points. rewrite <- Et. apply (b_dur _ _ _ _ HB n t); [exact En|]. apply Hc.
  - intros Hp. destruct (HC Hp) as [_ Hgd]. apply Hgd, Hc.
Qed.

Lemma c40_live_ok : forall good d w1 w2 ord imgs env r s,
  repo_ok good d -> (forall T, Permutation (ord T) T) ->
  Forall (image_good good) imgs -> open_good good w1 d ->
  install_run w1 w2 ord imgs (start d env) = (r, s) ->
  r <> Abort /\
  (env = [] -> no_stale d -> (forall k, w_open w1 k <> None) -> (forall k, w_open w2 k <> None) ->
   exists T, r = Ok T).
Proof.
  intros good d w1 w2 ord imgs env r s Hr Ho HF Hop Hrun.
  destruct (run_facts good d w1 w2 ord imgs env r s ((forall k, w_open w1 k <> None) /\ (forall k, w_open w2 k <> None) /\ no_stale d) Hr Ho HF Hop) as (_ & A & B & _); auto.
Qed.
