(** Pruning (for arbitrary directories) and the round trip of the activation state. *)
From Coq Require Import Permutation.
From Verif Require Import Base BaseLemmas KeyFile KeyFileLemmas Artifacts ArtifactsSpec ArtifactsProofs ArtifactsCrash ArtifactsPrepare ArtifactsTop.

(** ** [prepare] on any directory *)
Lemma prepare_entries_ok dr : forall l T T', prepare_entries dr l T = Ok T' ->
  T' = T ++ map (fun ng => mkart (fst ng) (snd ng) 0) (keys_of l) /\
  forall n g, In (n, g) (keys_of l) -> is_link dr (apath n g) = false.
Proof.
  induction l as [|[k e] l IH]; intros T T'; cbn [prepare_entries]; unfold keys_of; cbn [flat_map fst].
  - intros H. apply Ok_inj in H. subst. split; [now rewrite app_nil_r|intros ? ? []].
  - destruct (parse_artifact k) as [[n g]|] eqn:E; cbn [app]; fold (keys_of l) in *; [|apply IH].
    unfold repo_insert. destruct (is_link dr (apath n g)) eqn:E1; cbn [orb bind]; [discriminate|].
    destruct (is_link dr (atmp n g)); [discriminate|]. destruct (art_find T n g); [discriminate|]. cbn [bind].
    intros H. destruct (IH _ _ H) as [H1 H2]. split.
    + rewrite H1, <- app_assoc. reflexivity.
    + intros m h [K|K]; [injection K as <- <-; exact E1|now apply H2].
Qed.

Lemma prepare_ok d T : prepare d = Ok T -> T = scan d /\ forall n g, In (n, g) (keys_of d) -> is_link d (apath n g) = false.
Proof.
  unfold prepare. destruct (prepare_entries d d []) as [T0| |] eqn:E; cbn [bind]; [|discriminate|discriminate].
  intros H. apply Ok_inj in H. destruct (prepare_entries_ok _ _ _ _ E) as [H1 H2]. split; [|exact H2].
  subst T. rewrite fold_read, H1. unfold scan. cbn [app]. rewrite map_map. apply map_ext. intros [n g]. reflexivity.
Qed.

(** ** Pruning *)

Section prune.
Variable w : world.
Variable d0 : dir.
Variable live : Prop.
Hypothesis ND0 : NoDup (map fst d0).
Hypothesis live_open : live -> forall k, w_open w k <> None.

(** the directory differs from the original one only by removable data *)
Definition near (d : dir) : Prop :=
  forall k, (~ removable w d0 k -> assoc k d = assoc k d0) /\
            (removable w d0 k -> forall t, assoc k d <> Some (ELink t)).

Definition tri {A} (pre : dir -> Prop) (m : M A) (Q : A -> dir -> Prop) : Prop :=
  forall s, near (s_dir s) -> pre (s_dir s) ->
  match m s with
  | (Ok a, s') => near (s_dir s') /\ Q a (s_dir s') /\ (s_env s = [] -> s_env s' = [])
  | (Err, s') => near (s_dir s') /\ (s_env s = [] -> ~ live)
  | (Abort, _) => False
  end.

Lemma tri_bind {A B} pre (m : M A) (f : A -> M B) Mid Q :
  tri pre m Mid -> (forall a, tri (Mid a) (f a) Q) -> tri pre (bindM m f) Q.
Proof.
  intros H1 H2 s HN HP. unfold bindM. specialize (H1 s HN HP). destruct (m s) as [[a| |] s'].
  - destruct H1 as (HN' & HM & He). specialize (H2 a s' HN' HM). destruct (f a s') as [[b| |] s''].
    + destruct H2 as (X & Y & Z). auto.
    + destruct H2 as (X & Y). auto.
    + exact H2.
  - exact H1.
  - exact H1.
Qed.

Lemma tri_get {B} (pre : dir -> Prop) (f : dir -> M B) Q : (forall d, near d -> pre d -> tri (fun d' => d' = d) (f d) Q) -> tri pre (bindM get_dir f) Q.
Proof. intros H s HN HP. unfold bindM, get_dir. apply (H _ HN HP s); auto. Qed.

Lemma tri_ret {A} (pre : dir -> Prop) (a : A) (Q : A -> dir -> Prop) : (forall d, pre d -> Q a d) -> tri pre (ret a) Q.
Proof. intros H s HN HP. unfold ret. auto. Qed.

Lemma tri_step o (pre : dir -> Prop) (Q : unit -> dir -> Prop) :
  (forall d, near d -> pre d -> near (app_op o d) /\ Q tt (app_op o d)) -> tri pre (step o) Q.
Proof.
  intros H s HN HP. destruct (H _ HN HP) as [A B]. unfold step. destruct (s_env s) as [|[|] e]; cbn [s_dir s_env].
  - auto.
  - split; [exact A|]. split; [exact B|discriminate].
  - split; [exact HN|discriminate].
Qed.

Lemma tri_conseq {A} (pre pre' : dir -> Prop) (m : M A) (Q Q' : A -> dir -> Prop) :
  (forall d, pre d -> pre' d) -> (forall a d, Q' a d -> Q a d) -> tri pre' m Q' -> tri pre m Q.
Proof.
  intros H1 H2 H s HN HP. specialize (H s HN (H1 _ HP)). destruct (m s) as [[a| |] s']; auto.
  destruct H as (X & Y & Z). auto.
Qed.

Lemma rm_tree_tri k d1 : removable w d0 k -> (exists x, assoc k d1 = Some (EData x)) ->
  tri (fun d => d = d1) (rm_tree w k) (fun _ d => assoc k d = None /\ forall k', k' <> k -> assoc k' d = assoc k' d1).
Proof.
  intros HR [x Hx]. unfold rm_tree. apply tri_get. intros d _ ->. rewrite Hx.
  set (J := fun d => (forall k', k' <> k -> assoc k' d = assoc k' d1)).
  assert (HJ : forall c l, tri J (forM l (fun c => step (OData k c))) (fun _ => J) /\ tri J (step (OData k c)) (fun _ => J)).
  { assert (H1 : forall c, tri J (step (OData k c)) (fun _ => J)).
    { intros c. apply tri_step. intros d HN HJ0. split.
      - intros k'. destruct (string_dec k k') as [<-|Hne].
        + split; [contradiction|]. intros _ t. cbn [app_op]. rewrite assoc_set_eq. discriminate.
        + cbn [app_op]. rewrite assoc_set_neq by exact Hne. apply HN.
      - intros k' Hk. cbn [app_op]. rewrite assoc_set_neq by congruence. now apply HJ0. }
    intros c l. split; [|apply H1]. induction l as [|a l IH]; cbn [forM]; [now apply tri_ret|].
    eapply tri_bind; [apply H1|]. intros u. exact IH. }
  eapply tri_bind with (Mid := fun _ => J).
  - apply (tri_conseq _ J _ _ (fun _ => J)); [intros d E k1 _; now rewrite E|auto|]. apply (HJ x).
  - intros u. apply tri_step. intros d HN HJ0. split.
    + intros k'. destruct (string_dec k k') as [<-|Hne].
      * split; [contradiction|]. intros _ t. cbn [app_op]. rewrite assoc_remove_eq. discriminate.
      * cbn [app_op]. rewrite assoc_remove_neq by exact Hne. apply HN.
    + cbn [app_op]. split; [apply assoc_remove_eq|]. intros k' Hk. rewrite assoc_remove_neq by congruence. now apply HJ0.
Qed.

(** first phase *)
Definition P1 (done : list string) (d : dir) : Prop :=
  (forall k, ~ In k done \/ parse_artifact k <> None -> assoc k d = assoc k d0) /\
  (forall k, In k done -> parse_artifact k = None -> removable w d0 k -> assoc k d = None).

Lemma unexpected_tri k e done rest : d0 = done ++ (k, e) :: rest ->
  tri (P1 (map fst done)) (prune_unexpected w (k, e)) (fun _ => P1 (map fst (done ++ [(k, e)]))).
Proof.
  intros Hd0. unfold prune_unexpected. cbn [fst].
  assert (Hk : assoc k d0 = Some e).
  { apply assoc_nodup_in; [exact ND0|]. rewrite Hd0. apply in_or_app. right. now left. }
  assert (Hnew : ~ In k (map fst done)).
  { rewrite Hd0, map_app in ND0. cbn [map fst] in ND0. apply NoDup_remove_2 in ND0. intros X. apply ND0, in_or_app. now left. }
  assert (Hext : forall x, In x (map fst (done ++ [(k, e)])) <-> In x (map fst done) \/ x = k).
  { intros x. rewrite map_app, in_app_iff. cbn. intuition. }
  assert (Hskip : (parse_artifact k = None -> ~ removable w d0 k) -> forall d, P1 (map fst done) d -> P1 (map fst (done ++ [(k, e)])) d).
  { intros Hn d [A B]. split.
    - intros x [Hx|Hx]; [apply A; left; intros K; apply Hx, Hext; now left|apply A; now right].
    - intros x Hx Hp HR. apply Hext in Hx. destruct Hx as [Hx| ->]; [now apply B|]. now destruct (Hn Hp). }
  destruct (parse_artifact k) as [[n g]|] eqn:Ep.
  { apply tri_ret. intros d. apply Hskip. discriminate. }
  apply tri_get. intros d1 HN1 HP1. unfold is_link.
  assert (Hk1 : assoc k d1 = Some e) by (rewrite (proj1 HP1); [exact Hk|now left]).
  rewrite Hk1. destruct e as [t|c].
  - apply tri_ret. intros d ->. apply Hskip; [|exact HP1]. intros _ [[x Hx] _]. congruence.
  - destruct (w_cfs w && String.eqb k ".rauc-cfs-store") eqn:Ec.
    + apply tri_ret. intros d ->. apply Hskip; [|exact HP1]. intros _ [_ [[_ K]|(n & g & Hg & K & _)]].
      * apply andb_true_iff in Ec. destruct Ec as [E1 E2]. apply String.eqb_eq in E2. apply K. auto.
      * rewrite K, (parse_apath n g Hg) in Ep. discriminate.
    + assert (HR : removable w d0 k).
      { split; [eauto|]. left. split; [exact Ep|]. intros [E1 E2]. rewrite E1, E2, String.eqb_refl in Ec. discriminate. }
      apply (tri_conseq _ (fun d => d = d1) _ _ _ (fun d H => H)) with (2 := rm_tree_tri k d1 HR (ex_intro _ c Hk1)).
      intros _ d [A B]. split.
      * intros x Hx. destruct (string_dec x k) as [->|Hne].
        -- destruct Hx as [Hx|Hx]; [exfalso; apply Hx, Hext; now right|congruence].
        -- rewrite B by exact Hne. apply (proj1 HP1). destruct Hx as [Hx|Hx]; [left; intros K; apply Hx, Hext; now left|now right].
      * intros x Hx Hp HRx. destruct (string_dec x k) as [->|Hne]; [exact A|].
        rewrite B by exact Hne. apply Hext in Hx. destruct Hx as [Hx|Hx]; [now apply (proj2 HP1)|contradiction].
Qed.

Lemma unexpected_all : forall rest done, d0 = done ++ rest ->
  tri (P1 (map fst done)) (forM rest (prune_unexpected w)) (fun _ => P1 (map fst d0)).
Proof.
  induction rest as [|[k e] rest IH]; intros done E; cbn [forM].
  - rewrite app_nil_r in E. subst done. now apply tri_ret.
  - eapply tri_bind; [now apply (unexpected_tri k e done rest)|]. intros u. apply IH. now rewrite <- app_assoc.
Qed.

(** second phase *)
Definition stays (a : art) : bool := negb (Nat.eqb (a_refs a) 0) || match w_open w (apth a) with Some false => false | _ => true end.

Lemma arts_tri T : NoDup (map akey T) ->
  (forall a, In a T -> hex_digest (a_digest a) /\ (a_refs a = 0 -> w_open w (apth a) = Some false -> removable w d0 (apth a))) ->
  forall d1, (forall a, In a T -> exists x, assoc (apth a) d1 = Some (EData x)) ->
  tri (fun d => d = d1) (prune_arts w T)
    (fun T' d => T' = filter stays T /\ (forall a, In a T -> stays a = false -> assoc (apth a) d = None) /\
       forall k, (forall a, In a T -> stays a = false -> k <> apth a) -> assoc k d = assoc k d1).
Proof.
  induction T as [|a T IH]; intros ND HT d1 Hd1; cbn [prune_arts].
  - apply tri_ret. intros d ->. split; [reflexivity|]. split; [intros a []|auto].
  - cbn [map] in ND. inversion ND as [|? ? Hna ND']; subst.
    assert (Hne : forall b, In b T -> apth b <> apth a).
    { intros b Hb E. apply Hna. destruct (HT a) as [H1 _]; [now left|]. destruct (HT b) as [H2 _]; [now right|].
      apply apath_inj in E; auto. replace (akey a) with (akey b) by (unfold akey; destruct E; congruence). now apply in_map. }
    specialize (IH ND' (fun b Hb => HT b (or_intror Hb))).
    assert (Hkeep : stays a = true -> tri (fun d => d = d1) (run r' <- prune_arts w T ;; ret (a :: r'))
      (fun T' d => T' = filter stays (a :: T) /\ (forall b, In b (a :: T) -> stays b = false -> assoc (apth b) d = None) /\
         forall k, (forall b, In b (a :: T) -> stays b = false -> k <> apth b) -> assoc k d = assoc k d1)).
    { intros Hs. eapply tri_bind; [apply (IH d1); intros b Hb; apply Hd1; now right|].
      intros T'. apply tri_ret. intros d (-> & A & B). cbn [filter]. rewrite Hs. split; [reflexivity|]. split.
      - intros b [<-|Hb] Hsb; [congruence|now apply A].
      - intros k Hk. apply B. intros b Hb. apply Hk. now right. }
    unfold stays in Hkeep. fold (apth a). destruct (Nat.eqb (a_refs a) 0) eqn:Er; cbn [negb orb] in *; [|now apply Hkeep].
    destruct (w_open w (apth a)) as [[|]|] eqn:Eo; [now apply Hkeep| |].
    + clear Hkeep. apply Nat.eqb_eq in Er.
      assert (Hs : stays a = false) by (unfold stays; rewrite Er, Eo; reflexivity).
      destruct (HT a (or_introl eq_refl)) as [Hga HRa].
      intros s HN Ed; cbn beta in Ed; subst d1.
      pose proof (rm_tree_tri (apth a) (s_dir s) (HRa Er Eo) (Hd1 a (or_introl eq_refl)) s HN eq_refl) as X.
      unfold bindM. fold (apth a). destruct (rm_tree w (apth a) s) as [[u| |] s']; [|exact X|exact X].
      destruct X as (X1 & (X2 & X3) & X4).
      assert (Hd1' : forall b, In b T -> exists x, assoc (apth b) (s_dir s') = Some (EData x)).
      { intros b Hb. rewrite X3 by now apply Hne. apply Hd1. now right. }
      pose proof (IH (s_dir s') Hd1' s' X1 eq_refl) as Y. destruct (prune_arts w T s') as [[T'| |] s''].
      * destruct Y as (Y1 & (Y2 & Y3 & Y4) & Y5). split; [exact Y1|]. split; [|auto]. cbn [filter]. rewrite Hs. split; [exact Y2|]. split.
        -- intros b [<-|Hb] Hsb; [|now apply Y3]. rewrite Y4; [exact X2|]. intros b Hb _ E. symmetry in E. now apply (Hne b Hb).
        -- intros k Hk. rewrite Y4; [|intros b Hb; apply Hk; now right]. apply X3. apply Hk; [now left|exact Hs].
      * destruct Y as (Y1 & Y2). auto.
      * exact Y.
    + intros s HN _. unfold fail. split; [exact HN|]. intros _ Hl. now apply (live_open Hl (apth a)).
Qed.

Lemma prune_tri T T0 : prepare d0 = Ok T0 -> Permutation T T0 ->
  tri (fun d => d = d0) (prune w T)
    (fun T' d => T' = filter stays T /\ forall k, removable w d0 k -> assoc k d = None).
Proof.
  intros Hprep HPm. destruct (prepare_ok _ _ Hprep) as [-> Hnl]. unfold prune. apply tri_get. intros d _ ->.
  eapply tri_bind with (Mid := fun _ => P1 (map fst d0)).
  { apply (tri_conseq _ (P1 (map fst (@nil (string * entry)))) _ _ (fun _ => P1 (map fst d0))).
    - intros d ->. split; [reflexivity|intros k []].
    - auto.
    - now apply (unexpected_all d0 []). }
  intros u s HN HP1.
  assert (HTin : forall a, In a T -> In a (scan d0)) by (intros a; now apply Permutation_in).
  assert (Hdat : forall a, In a (scan d0) -> hex_digest (a_digest a) /\ exists x, assoc (apth a) d0 = Some (EData x)).
  { intros a Ha. apply scan_in in Ha. destruct Ha as [Ha _]. unfold akey in Ha. pose proof Ha as Ha2. apply keys_of_in in Ha. destruct Ha as [Hg Ha].
    split; [exact Hg|]. apply assoc_some_key in Ha. apply Hnl in Ha2. unfold is_link in Ha2. unfold apth.
    destruct (assoc (apath (a_name a) (a_digest a)) d0) as [[t|x]|]; [discriminate|eauto|contradiction]. }
  assert (Hpa : forall a, In a (scan d0) -> parse_artifact (apth a) <> None).
  { intros a Ha. destruct (Hdat a Ha) as [Hg _]. unfold apth. rewrite (parse_apath _ _ Hg). discriminate. }
  assert (ND : NoDup (map akey T)).
  { apply (Permutation_NoDup (l := map akey (scan d0))); [now apply Permutation_map, Permutation_sym|]. rewrite scan_keys. now apply keys_of_nodup. }
  assert (HT : forall a, In a T -> hex_digest (a_digest a) /\ (a_refs a = 0 -> w_open w (apth a) = Some false -> removable w d0 (apth a))).
  { intros a Ha. apply HTin in Ha. destruct (Hdat a Ha) as [Hg [x Hx]]. split; [exact Hg|]. intros Hr Ho. split; [eauto|]. right.
    exists (a_name a), (a_digest a). split; [exact Hg|]. split; [reflexivity|]. split; [exact Ho|].
    intros l Hl Hp. assert (K : a_refs a <> 0) by (apply (scan_refs d0 a ND0 Ha); eauto). contradiction. }
  assert (Hd1 : forall a, In a T -> exists x, assoc (apth a) (s_dir s) = Some (EData x)).
  { intros a Ha. apply HTin in Ha. destruct (Hdat a Ha) as [Hg [x Hx]]. exists x. rewrite (proj1 HP1); [exact Hx|]. right. now apply Hpa. }
  pose proof (arts_tri T ND HT (s_dir s) Hd1 s HN eq_refl) as X. destruct (prune_arts w T s) as [[T'| |] s']; [|exact X|exact X].
  destruct X as (X1 & (X2 & X3 & X4) & X5). split; [exact X1|]. split; [|exact X5]. split; [exact X2|].
  intros k HR. destruct (parse_artifact k) as [[n g]|] eqn:Ep.
  - destruct (parse_spec _ _ _ Ep) as [Ek Hg]. destruct HR as [[x Hx] [[K _]|(n' & g' & Hg' & K & Ho & Hnp)]]; [congruence|].
    rewrite K in Ek. apply apath_inj in Ek; auto. destruct Ek as [-> ->].
    assert (Hin : In (n, g) (map akey T)).
    { apply (Permutation_in (l := map akey (scan d0))); [now apply Permutation_map, Permutation_sym|]. rewrite scan_keys. apply keys_of_in.
      split; [exact Hg|]. apply assoc_some_key. congruence. }
    apply in_map_iff in Hin. destruct Hin as (a & E & Ha). unfold akey in E. injection E as E1 E2.
    assert (Ea : apth a = k) by (unfold apth; rewrite E1, E2; congruence).
    rewrite <- Ea. apply X3; [exact Ha|]. unfold stays. rewrite Ea, Ho, orb_false_r. apply negb_false_iff, Nat.eqb_eq.
    destruct (a_refs a) as [|r] eqn:Er; [reflexivity|]. exfalso. assert (K2 : a_refs a <> 0) by (rewrite Er; discriminate).
    apply (scan_refs d0 a ND0 (HTin a Ha)) in K2. destruct K2 as (l & Hl & Hp). rewrite E1, E2 in Hp. now apply (Hnp l Hl).
  - assert (K : assoc k (s_dir s) = None).
    { apply (proj2 HP1); [|exact Ep|exact HR]. apply assoc_some_key. destruct HR as [[x Hx] _]. congruence. }
    rewrite X4; [exact K|]. intros a Ha _ E. subst k. now apply (Hpa a (HTin a Ha)).
Qed.
End prune.

Lemma c39_prune_ok : forall w d T T0 env r s,
  NoDup (map fst d) -> prepare d = Ok T0 -> Permutation T T0 ->
  prune w T (start d env) = (r, s) ->
  r <> Abort /\
  (forall k, ~ removable w d k -> assoc k (s_dir s) = assoc k d) /\
  (forall T', r = Ok T' ->
     (forall k, removable w d k -> assoc k (s_dir s) = None) /\
     (forall n g, listed T' n g <-> hex_digest g /\ assoc (apath n g) (s_dir s) <> None)) /\
  (env = [] -> (forall k, w_open w k <> None) -> exists T', r = Ok T').
Proof.
  intros w d T T0 env r s ND Hprep HP Hrun.
  assert (HN : near w d (s_dir (start d env))).
  { intros k. cbn [start s_dir]. split; [reflexivity|]. intros [[x Hx] _] t. congruence. }
  pose proof (prune_tri w d (forall k, w_open w k <> None) ND (fun H => H) T T0 Hprep HP (start d env) HN eq_refl) as X.
  rewrite Hrun in X. destruct (prepare_ok _ _ Hprep) as [-> Hnl].
  destruct r as [T'| |]; [| |destruct X].
  - destruct X as (X1 & (X2 & X3) & _). split; [discriminate|]. split; [intros k; apply X1|]. split; [|eauto].
    intros T'' E. apply Ok_inj in E. subst T''. split; [exact X3|].
    assert (Hin : forall n g, listed T n g <-> hex_digest g /\ assoc (apath n g) d <> None).
    { intros n g. rewrite assoc_some_key, <- keys_of_in, <- scan_keys. split.
      - intros (a & Ha & <- & <-). apply (Permutation_in (l' := scan d)) in Ha; [|exact HP]. apply (in_map akey) in Ha. exact Ha.
      - intros K. apply in_map_iff in K. destruct K as (a & E & Ha). unfold akey in E. injection E as E1 E2. exists a.
        split; [|auto]. now apply (Permutation_in _ (Permutation_sym HP)). }
    assert (Hst : forall a, In a T -> hex_digest (a_digest a) -> stays w a = true <-> ~ removable w d (apth a)).
    { intros a Ha Hg.
      assert (HaS : In a (scan d)) by now apply (Permutation_in _ HP).
      pose proof (scan_refs d a ND HaS) as HRf.
      assert (Hda : exists x, assoc (apth a) d = Some (EData x)).
      { apply scan_in in HaS. destruct HaS as [HaS _]. unfold akey in HaS. pose proof (Hnl _ _ HaS) as K. unfold is_link in K. unfold apth.
        apply keys_of_in in HaS. destruct HaS as [_ HaS]. apply assoc_some_key in HaS.
        destruct (assoc (apath (a_name a) (a_digest a)) d) as [[?|?]|]; [discriminate|eauto|contradiction]. }
      assert (Hpa : parse_artifact (apth a) <> None) by (unfold apth; rewrite (parse_apath _ _ Hg); discriminate).
      unfold stays. destruct (Nat.eqb_spec (a_refs a) 0) as [Er|Er]; cbn [negb orb].
      - assert (HR : w_open w (apth a) = Some false <-> removable w d (apth a)).
        { split.
          - intros Eo. split; [exact Hda|]. right. exists (a_name a), (a_digest a). split; [exact Hg|]. split; [reflexivity|].
            split; [exact Eo|]. intros l Hl Hp. apply (proj2 HRf); eauto.
          - intros [_ [[K _]|(n & g & _ & _ & K & _)]]; [contradiction|exact K]. }
        rewrite <- HR. destruct (w_open w (apth a)) as [[|]|]; split; congruence.
      - split; [|reflexivity]. intros _ [_ [[K _]|(n & g & Hg' & E & _ & K)]]; [contradiction|].
        apply HRf in Er. destruct Er as (l & Hl & Hp). apply apath_inj in E; auto. destruct E as [<- <-]. now apply (K l Hl). }
    intros n g. subst T'. split.
    + intros (a & Ha & En & Eg). apply filter_In in Ha. destruct Ha as [Ha Hs].
      assert (K : listed T n g) by (exists a; auto). apply Hin in K. destruct K as [Hg K]. split; [exact Hg|].
      rewrite (proj1 (X1 (apath n g))); [exact K|].
      rewrite <- En, <- Eg. fold (apth a). apply Hst; auto. now rewrite Eg.
    + intros [Hg K]. assert (HR : ~ removable w d (apath n g)) by (intros Y; apply X3 in Y; congruence).
      rewrite (proj1 (X1 _) HR) in K. assert (KL : listed T n g) by (apply Hin; auto). destruct KL as (a & Ha & En & Eg).
      exists a. split; [|auto]. apply filter_In. split; [exact Ha|]. apply Hst; [exact Ha|now rewrite Eg|]. unfold apth. now rewrite En, Eg.
  - destruct X as (X1 & X2). split; [discriminate|]. split; [intros k; apply X1|]. split; [discriminate|].
    intros E Hl. now apply X2 in Hl.
Qed.

Lemma c39_links_ok : forall w d T T0 env r s l n g e,
  NoDup (map fst d) -> prepare d = Ok T0 -> Permutation T T0 ->
  prune w T (start d env) = (r, s) ->
  (forall k t, assoc k d = Some (ELink t) -> assoc k (s_dir s) = Some (ELink t)) /\
  (visible l -> hex_digest g -> points d l n g -> assoc (apath n g) d = Some e ->
   points (s_dir s) l n g /\ assoc (apath n g) (s_dir s) = Some e).
Proof.
  intros w d T T0 env r s l n g e ND Hprep HP Hrun.
  destruct (c39_prune_ok w d T T0 env r s ND Hprep HP Hrun) as (_ & H & _).
  assert (HL : forall k t, assoc k d = Some (ELink t) -> assoc k (s_dir s) = Some (ELink t)).
  { intros k t E. rewrite H; [exact E|]. intros [[x Hx] _]. congruence. }
  split; [exact HL|]. intros Hl Hg Hp He. split; [now apply HL|]. rewrite H; [exact He|].
  intros [_ [[K _]|(m & h & Hh & E & _ & K)]].
  - rewrite (parse_apath _ _ Hg) in K. discriminate.
  - apply apath_inj in E; auto. destruct E as [<- <-]. now apply (K l Hl).
Qed.

(** ** C38: the activation state survives being written and read again *)
Definition img_of (a : art) : image := mkimage (a_name a) (a_digest a) "".

Lemma c38_round_trip_ok : forall d T T0 env s,
  repo_ok (fun _ _ _ => True) d -> no_stale d -> tidy d ->
  prepare d = Ok T0 ->
  Permutation (map (fun a => (a_name a, a_digest a)) T) (map (fun a => (a_name a, a_digest a)) T0) ->
  (forall n g g', enab T n g -> enab T n g' -> g = g') ->
  commit T (start d env) = (Ok tt, s) ->
  exists T', prepare (s_dir s) = Ok T' /\
    forall n g, (listed T' n g <-> listed T n g) /\
                (enab T' n g <-> enab T n g) /\
                (enab T n g <-> valid_name n /\ hex_digest g /\ points (s_dir s) n n g).
Proof.
  intros d T T0 env s Hr Hns Htd Hprep HP Hone Hrun.
  rewrite (prepare_scan _ d Hr) in Hprep. apply Ok_inj in Hprep. subst T0.
  set (good := fun (_ _ : string) (_ : content) => True).
  set (imgs := map img_of T).
  assert (HK : Permutation (map akey T) (map akey (scan d))) by exact HP.
  assert (HT : tab True T d).
  { apply (tab_keys True (scan d)); [exact HK|]. apply (scan_tab good); [exact Hr|]. intros _. exact Hns. }
  assert (HI : I1 good True T d (on_disk d)).
  { constructor; auto.
    - intros a Ha. left. intros v ->. destruct (t_in _ _ _ HT a Ha) as (_ & _ & c & E). exists c. now split.
    - intros l t K. now symmetry. }
  assert (Hfit : fits d [] imgs T).
  { intros _ n _ _. destruct (chosen T n) as [a|] eqn:E; cbn [option_map].
    - destruct (chosen_spec _ _ _ E) as (Ha & <- & _). right. exists (a_digest a). split; [reflexivity|]. right.
      exists (img_of a). split; [now apply in_map|auto].
    - left. split; [reflexivity|intros []]. }
  assert (HG0 : G good d [] imgs (start d env)).
  { destruct (repo_ok_safe good d [] imgs Hr) as [ND HS]. constructor; cbn [start s_dir s_ops].
    - reflexivity.
    - intros p q E. symmetry in E. apply app_eq_nil in E. destruct E as [-> _]. exact HS.
    - exact ND. }
  pose proof (commit_ok good d True [] imgs T Hfit (start d env) HG0 HI) as X. rewrite Hrun in X.
  destruct X as (HG & (HI' & _ & _ & HL) & _).
  assert (Hr' : repo_ok good (s_dir s)).
  { apply (safe_repo_ok good d [] imgs); [apply (G_nodup _ _ _ _ _ HG)|].
    apply (safe_sub good d [] imgs (PS d s)); [|now apply G_now]. intros k v ->. now apply (G_cur good d [] imgs). }
  pose proof (i_tab _ _ _ _ _ HI') as HT'.
  assert (Huniq : forall a b, In a T -> In b T -> a_name a = a_name b -> a_refs a <> 0 -> a_refs b <> 0 -> a = b).
  { intros a b Ha Hb En Ra Rb. apply (tab_uniq True T d a b HT Ha Hb). unfold akey. f_equal; [exact En|].
    apply (Hone (a_name a)); [exists a; auto|exists b; auto]. }
  exists (scan (s_dir s)). split; [now apply (prepare_scan good)|]. intros n g.
  assert (HLi : listed (scan (s_dir s)) n g <-> listed T n g).
  { split.
    - intros (a & Ha & En & Eg). apply scan_in in Ha. destruct Ha as [Ha _]. unfold akey in Ha. rewrite En, Eg in Ha.
      apply keys_of_in in Ha. destruct Ha as [Hg Ha]. apply assoc_some_key in Ha. apply (t_all _ _ _ HT' n g Hg) in Ha.
      apply in_map_iff in Ha. destruct Ha as (b & E & Hb). unfold akey in E. injection E as E1 E2. exists b. auto.
    - intros (a & Ha & En & Eg). destruct (t_in _ _ _ HT' a Ha) as (_ & Hg & c & E).
      assert (K : In (akey a) (map akey (scan (s_dir s)))).
      { rewrite scan_keys. apply keys_of_in. split; [exact Hg|]. apply assoc_some_key. unfold apth in E. congruence. }
      apply in_map_iff in K. destruct K as (b & E2 & Hb). unfold akey in E2. injection E2 as E3 E4. exists b. split; [exact Hb|]. split; congruence. }
  assert (HEn : enab T n g <-> valid_name n /\ hex_digest g /\ points (s_dir s) n n g).
  { split.
    - intros (a & Ha & En & Eg & Ra). destruct (t_in _ _ _ HT' a Ha) as (Hn & Hg & _).
      split; [now rewrite <- En|]. split; [now rewrite <- Eg|]. unfold points. rewrite (HL n) by (rewrite <- En; now apply in_map).
      assert (E : chosen T n = Some a).
      { unfold chosen. destruct (find enabled (filter (fun a0 => String.eqb (a_name a0) n) T)) as [b|] eqn:E.
        - destruct (chosen_spec T n b E) as (Hb & Hbn & Hbr). f_equal. apply Huniq; auto. congruence.
        - apply (find_none _ _) with (x := a) in E.
          + unfold enabled in E. apply negb_false_iff, Nat.eqb_eq in E. contradiction.
          + apply filter_In. split; [exact Ha|]. now apply String.eqb_eq. }
      rewrite E. cbn [option_map]. unfold apth. now rewrite En, Eg.
    - intros (Hn & Hg & Hp). destruct (ro_good _ _ Hr' n g Hn Hg Hp) as (c & Hc & _).
      assert (K : In (n, g) (map akey T)) by (apply (t_all _ _ _ HT' n g Hg); congruence).
      assert (Kn : In n (map a_name T)).
      { apply in_map_iff in K. destruct K as (a & E & Ha). unfold akey in E. injection E as <- _. now apply in_map. }
      unfold points in Hp. rewrite (HL n Kn) in Hp. destruct (chosen T n) as [a|] eqn:E; [|discriminate]. cbn [option_map] in Hp.
      destruct (chosen_spec _ _ _ E) as (Ha & Han & Har). exists a. split; [exact Ha|]. split; [exact Han|]. split; [|exact Har].
      assert (Q : apth a = apath n g) by congruence. unfold apth in Q. rewrite Han in Q. now apply apath_inv_r in Q. }
  split; [exact HLi|]. split; [|exact HEn]. rewrite HEn. split.
  - intros (a & Ha & En & Eg & Ra). apply (scan_refs _ a (ro_nodup _ _ Hr') Ha) in Ra. destruct Ra as (l & Hl & Hp).
    apply scan_in in Ha. destruct Ha as [Ha _]. unfold akey in Ha. rewrite En, Eg in Ha. apply keys_of_in in Ha. destruct Ha as [Hg Ha].
    apply assoc_some_key in Ha. destruct (ro_art _ _ Hr' _ _ Hg Ha) as [Hn _]. split; [exact Hn|]. split; [exact Hg|].
    rewrite En, Eg in Hp. destruct (ro_link _ _ Hr' l n g Hl Hg Hp) as [->| ->]; [exact Hp|].
    unfold points in Hp. rewrite (t_live _ _ _ HT' Logic.I n Hn) in Hp. discriminate.
  - intros (Hn & Hg & Hp). destruct (ro_good _ _ Hr' n g Hn Hg Hp) as (c & Hc & _).
    assert (K : In (n, g) (map akey (scan (s_dir s)))).
    { rewrite scan_keys. apply keys_of_in. split; [exact Hg|]. apply assoc_some_key. congruence. }
    apply in_map_iff in K. destruct K as (a & E & Ha). unfold akey in E. injection E as E1 E2. exists a. split; [exact Ha|]. split; [exact E1|]. split; [exact E2|].
    apply (scan_refs _ a (ro_nodup _ _ Hr') Ha). exists n. split; [now apply valid_visible|]. now rewrite E1, E2.
Qed.

(** Committing and activating: the table operations enable exactly one artifact of the name. *)
Lemma c38_activate_ok : forall T n g m h,
  NoDup (map (fun a => (a_name a, a_digest a)) T) ->
  (forall a, In a T -> a_refs a <= 1) ->
  (forall n g g', enab T n g -> enab T n g' -> g = g') ->
  listed T n g ->
  enab (activate n g T) m h <-> (m = n /\ h = g) \/ (m <> n /\ enab T m h).
Proof.
  intros T n g m h ND H1 H2 H3. apply activate_enab; [|exact H3]. constructor; [exact H1|].
  intros a b Ha Hb En Ra Rb. assert (E : a_digest a = a_digest b).
  { apply (H2 (a_name a)); [exists a; auto|exists b; auto]. }
  clear - ND Ha Hb En E. induction T as [|x T IH]; [destruct Ha|]. cbn [map] in ND. inversion ND as [|? ? Hx ND']; subst.
  destruct Ha as [->|Ha], Hb as [->|Hb]; auto; exfalso; apply Hx; apply in_map_iff; [exists b|exists a]; split; auto; congruence.
Qed.

(** ** Counterexamples *)
Definition w0 : world := mkworld (fun _ => []) (fun _ => []) (fun _ => Some false) false.
Definition keep_order : order := fun T => T.

(** A second link to the active artifact (an alias) defeats the update: the installation
    reports success, but the artifact link still points to the old artifact. *)
Lemma c40_alias_refuted :
  let d := [("foo", ELink ".artifact-foo-aa"); ("bar", ELink ".artifact-foo-aa"); (".artifact-foo-aa", EData "old")] in
  exists T s, install_run w0 w0 keep_order [mkimage "foo" "bb" "new"] (start d []) = (Ok T, s) /\
    points (s_dir s) "foo" "foo" "aa".
Proof. eexists. eexists. split; vm_compute; reflexivity. Qed.

(** A digest with capital letters (accepted in a manifest) is not recognised as an artifact: the
    installation reports success, but has already removed the artifact again. *)
Lemma c39_uppercase_refuted :
  exists T s, install_run w0 w0 keep_order [mkimage "foo" "AB" "new"] (start [] []) = (Ok T, s) /\
    points (s_dir s) "foo" "foo" "AB" /\ assoc (apath "foo" "AB") (s_dir s) = None.
Proof. eexists. eexists. split; [|split]; vm_compute; reflexivity. Qed.

(** A link with a hidden name is not counted: pruning removes the artifact it points to. *)
Lemma c39_hidden_link_refuted :
  let d := [(".current", ELink ".artifact-foo-aa"); (".artifact-foo-aa", EData "x")] in
  exists T T' s, prepare d = Ok T /\ prune w0 T (start d []) = (Ok T', s) /\
    points (s_dir s) ".current" "foo" "aa" /\ assoc (apath "foo" "aa") (s_dir s) = None.
Proof. eexists. eexists. eexists. split; [|split; [|split]]; vm_compute; reflexivity. Qed.

(** A crash between the creation and the renaming of the temporary link leaves it behind; from then
    on every update of this artifact fails, although no system call fails. *)
Lemma c40_stale_link_refuted :
  let d := [("foo", ELink ".artifact-foo-aa"); (".artifact-foo-aa", EData "old")] in
  let imgs := [mkimage "foo" "bb" "new"] in
  exists r s c, install_run w0 w0 keep_order imgs (start d []) = (r, s) /\ crash d (s_ops s) c /\
    assoc (stale_link "foo") c <> None /\
    fst (install_run w0 w0 keep_order imgs (start c [])) = Err.
Proof.
  intros d imgs.
  set (p := [OSyncfs; OData ".artifact-foo-bb.tmp" "new"; OSyncfs; ORename ".artifact-foo-bb.tmp" ".artifact-foo-bb"; OSyncDir;
             OLink "foo.tmp-link" ".artifact-foo-bb"]).
  eexists. eexists. exists (play p d).
  split; [vm_compute; reflexivity|]. split; [|split; [vm_compute; discriminate|vm_compute; reflexivity]].
  exists p, [ORename "foo.tmp-link" "foo"; OSyncfs; ORemove ".artifact-foo-aa"]. split; [reflexivity|]. split.
  - vm_compute. repeat constructor; cbn; intuition discriminate.
  - intros k. now apply poss_ops_cur.
Qed.

(** If a manifest no longer has the artifact, its link is removed, but an alias is left dangling
    by the pruning at the end of the same run. *)
Lemma c40_alias_dangling_refuted :
  let d := [("foo", ELink ".artifact-foo-aa"); ("bar", ELink ".artifact-foo-aa"); (".artifact-foo-aa", EData "old")] in
  exists T s, install_run w0 w0 keep_order [mkimage "app" "cc" "new"] (start d []) = (Ok T, s) /\
    points (s_dir s) "bar" "foo" "aa" /\ assoc (apath "foo" "aa") (s_dir s) = None.
Proof. eexists. eexists. split; [|split]; vm_compute; reflexivity. Qed.
