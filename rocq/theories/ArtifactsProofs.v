(** Names, the persistence model and the basic lemmas about artifact repositories. *)
From Coq Require Import Permutation.
From Verif Require Import Base BaseLemmas KeyFile KeyFileLemmas Artifacts ArtifactsSpec.

(** ** Names *)
Lemma no_char_cons c a s : no_char c (String a s) = true -> a <> c /\ no_char c s = true.
Proof.
  unfold no_char. cbn [all_chars]. intros H. apply andb_true_iff in H. destruct H as [H1 H2]. split; [|exact H2].
  intros ->. rewrite Ascii.eqb_refl in H1. discriminate.
Qed.

Lemma last_dash_none s : no_char "-" s = true -> last_dash s = None.
Proof.
  induction s as [|a s IH]; [reflexivity|]. intros H. apply no_char_cons in H. destruct H as [Ha Hs].
  cbn [last_dash]. rewrite (IH Hs). destruct (Ascii.eqb_spec a "-"); [contradiction|reflexivity].
Qed.

Lemma last_dash_app x y : no_char "-" y = true -> last_dash (x ++ "-" ++ y) = Some (x, y).
Proof.
  intros H. induction x as [|a x IH].
  - change ("" ++ "-" ++ y)%string with (String "-" y). cbn [last_dash]. rewrite (last_dash_none _ H). reflexivity.
  - change ((String a x ++ "-" ++ y)%string) with (String a (x ++ "-" ++ y)%string). cbn [last_dash]. now rewrite IH.
Qed.

Lemma last_dash_spec s x y : last_dash s = Some (x, y) -> s = (x ++ "-" ++ y)%string.
Proof.
  revert x y. induction s as [|a s IH]; intros x y; cbn [last_dash]; [discriminate|].
  destruct (last_dash s) as [[u v]|] eqn:E.
  - intros H. injection H as <- <-. rewrite (IH _ _ eq_refl). reflexivity.
  - destruct (Ascii.eqb_spec a "-"); [|discriminate]. intros H. injection H as <- <-. now subst.
Qed.

Lemma lhex_not c : lhex c = true -> c <> "-"%char /\ c <> "."%char.
Proof. intros H. split; intros ->; vm_compute in H; discriminate. Qed.

Lemma hex_no_dash g : all_chars lhex g = true -> no_char "-" g = true.
Proof.
  unfold no_char. apply all_chars_impl. intros c H. destruct (lhex_not c H) as [K _].
  destruct (Ascii.eqb_spec c "-"); [contradiction|reflexivity].
Qed.

Lemma parse_apath n g : hex_digest g -> parse_artifact (apath n g) = Some (n, g).
Proof.
  intros [Hn Hh]. unfold parse_artifact, apath.
  rewrite has_prefix_app.
  change (sdrop 10 (".artifact-" ++ n ++ "-" ++ g)) with (n ++ "-" ++ g)%string.
  rewrite (last_dash_app n g (hex_no_dash g Hh)), Hh.
  destruct (String.eqb_spec g ""); [contradiction|reflexivity].
Qed.

Lemma parse_spec k n g : parse_artifact k = Some (n, g) -> k = apath n g /\ hex_digest g.
Proof.
  unfold parse_artifact. destruct (has_prefix ".artifact-" k) eqn:E; [|discriminate].
  apply has_prefix_spec in E. destruct E as [r ->].
  change (sdrop 10 (".artifact-" ++ r)) with r.
  destruct (last_dash r) as [[x y]|] eqn:E; [|discriminate]. apply last_dash_spec in E.
  destruct (String.eqb_spec y ""); [discriminate|]. cbn [negb andb].
  destruct (all_chars lhex y) eqn:Ey; [|discriminate]. intros H. injection H as <- <-.
  split; [unfold apath; now subst r|split; assumption].
Qed.

Lemma apath_inj n g n' g' : hex_digest g -> hex_digest g' -> apath n g = apath n' g' -> n = n' /\ g = g'.
Proof.
  intros H H' E. pose proof (parse_apath n g H) as A. rewrite E, (parse_apath n' g' H') in A. injection A as -> ->. auto.
Qed.

Lemma parse_atmp n g : hex_digest g -> parse_artifact (atmp n g) = None.
Proof.
  intros [Hn Hh]. unfold parse_artifact, atmp, apath. rewrite app_assoc_s, has_prefix_app.
  change (sdrop 10 (".artifact-" ++ (n ++ "-" ++ g) ++ ".tmp")) with ((n ++ "-" ++ g) ++ ".tmp")%string.
  rewrite !app_assoc_s.
  rewrite (last_dash_app n (g ++ ".tmp")).
  - rewrite all_chars_app. assert (E : all_chars lhex ".tmp" = false) by reflexivity. rewrite E, andb_false_r, andb_false_r. reflexivity.
  - rewrite no_char_app, (hex_no_dash _ Hh). reflexivity.
Qed.

Lemma valid_visible n : valid_name n -> visible n.
Proof.
  intros (Hn & Hd & _). unfold visible. destruct n as [|a n]; [contradiction|].
  apply no_char_cons in Hd. destruct Hd as [Ha _]. cbn [has_prefix].
  destruct (Ascii.eqb_spec "." a); [subst; now destruct Ha|reflexivity].
Qed.

Lemma visible_parse k : visible k -> parse_artifact k = None.
Proof.
  intros H. destruct (parse_artifact k) as [[n g]|] eqn:E; [|reflexivity].
  apply parse_spec in E. destruct E as [-> _]. unfold visible, apath in H. cbn in H. discriminate.
Qed.

Lemma stale_visible n : valid_name n -> visible (stale_link n).
Proof.
  intros H. pose proof (valid_visible n H) as V. destruct H as (Hn & _).
  destruct n as [|a n]; [contradiction|]. unfold visible, stale_link in *.
  change (String a n ++ ".tmp-link")%string with (String a (n ++ ".tmp-link")%string).
  cbn [has_prefix] in *. exact V.
Qed.

Lemma stale_not_valid n m : valid_name m -> stale_link n <> m.
Proof.
  intros (_ & H & _) <-. unfold stale_link in H. rewrite no_char_app in H. apply andb_true_iff in H. destruct H as [_ H]. discriminate.
Qed.

Lemma stale_inj n m : stale_link n = stale_link m -> n = m.
Proof. apply app_inv_r. Qed.

Lemma atmp_hidden n g : has_prefix "." (atmp n g) = true.
Proof. reflexivity. Qed.
Lemma apath_hidden n g : has_prefix "." (apath n g) = true.
Proof. reflexivity. Qed.

Lemma visible_not_apath k n g : visible k -> k <> apath n g.
Proof. intros H ->. unfold visible in H. rewrite apath_hidden in H. discriminate. Qed.
Lemma visible_not_atmp k n g : visible k -> k <> atmp n g.
Proof. intros H ->. unfold visible in H. rewrite atmp_hidden in H. discriminate. Qed.

(** ** Association lists *)
Lemma assoc_nodup_in {B} k (v : B) l : NoDup (map fst l) -> In (k, v) l -> assoc k l = Some v.
Proof.
  induction l as [|[k' v'] l IH]; cbn [map fst assoc]; intros ND H; [destruct H|].
  inversion ND as [|? ? Hn ND']; subst. destruct H as [H|H].
  - injection H as -> ->. now rewrite String.eqb_refl.
  - destruct (String.eqb_spec k' k) as [->|Hne].
    + destruct Hn. apply in_map_iff. now exists (k, v).
    + now apply IH.
Qed.

Lemma keys_set {B} k (v : B) l : NoDup (map fst l) -> NoDup (map fst (assoc_set k v l)).
Proof.
  intros H. rewrite assoc_set_keys. destruct (existsb (String.eqb k) (map fst l)) eqn:E; [exact H|].
  assert (K : ~ In k (map fst l)).
  { intros K. assert (existsb (String.eqb k) (map fst l) = true); [|congruence].
    apply existsb_exists. exists k. split; [exact K|apply String.eqb_refl]. }
  clear E. induction (map fst l) as [|x xs IH]; cbn [app]; [constructor; [easy|constructor]|].
  inversion H; subst. constructor.
  - rewrite in_app_iff. intros [X|[X|[]]]; [contradiction|]. subst. apply K. now left.
  - apply IH; [assumption|]. intros X. apply K. now right.
Qed.

Lemma keys_remove {B} k (l : list (string * B)) : NoDup (map fst l) -> NoDup (map fst (assoc_remove k l)).
Proof.
  unfold assoc_remove. induction l as [|[k' v'] l IH]; intros H; [constructor|].
  cbn [map fst] in H. inversion H; subst. cbn [filter fst].
  match goal with |- context [if ?b then _ else _] => destruct b end; [|now apply IH].
  cbn [map fst]. constructor; [|now apply IH].
  intros X. apply H2. apply in_map_iff in X. destruct X as (z & E1 & E2). apply filter_In in E2.
  apply in_map_iff. exists z. tauto.
Qed.

(** ** Operations *)
Lemma app_op_nodup o d : NoDup (map fst d) -> NoDup (map fst (app_op o d)).
Proof.
  intros H. destruct o; cbn [app_op]; auto using keys_set, keys_remove.
  destruct (assoc a d); [|exact H]. now apply keys_set, keys_remove.
Qed.

Lemma play_snoc l o d : play (l ++ [o]) d = app_op o (play l d).
Proof. revert d. induction l as [|x l IH]; intros d; [reflexivity|]. cbn [play app]. apply IH. Qed.

Lemma poss_ops_snoc l o d P : poss_ops (l ++ [o]) d P = poss_step o (play l d) (poss_ops l d P).
Proof. revert d P. induction l as [|x l IH]; intros d P; [reflexivity|]. cbn [poss_ops play app]. apply IH. Qed.

(** the current state is always possible *)
Lemma poss_step_cur o d (P : poss) : (forall k, P k (assoc k d)) -> forall k, poss_step o d P k (assoc k (app_op o d)).
Proof.
  intros H k. destruct o as [n c|n t|a b|n| |]; cbn [poss_step app_op].
  - destruct (string_dec n k) as [->|Hn]; [right; now rewrite assoc_set_eq|]. left. now rewrite assoc_set_neq.
  - destruct (string_dec n k) as [->|Hn]; [right; now rewrite assoc_set_eq|]. left. now rewrite assoc_set_neq.
  - destruct (assoc a d) as [e|] eqn:E; [|left; apply H].
    destruct (string_dec b k) as [->|Hb].
    + rewrite assoc_set_eq. right. right. split; [reflexivity|]. rewrite <- E. split; [apply H|]. rewrite E. discriminate.
    + rewrite assoc_set_neq by exact Hb. destruct (string_dec a k) as [->|Ha].
      * rewrite assoc_remove_eq. right. now left.
      * rewrite assoc_remove_neq by exact Ha. left. apply H.
  - destruct (string_dec n k) as [->|Hn]; [right; now rewrite assoc_remove_eq|]. left. now rewrite assoc_remove_neq.
  - reflexivity.
  - destruct (assoc k d) as [[t|c]|] eqn:E; auto. split; [rewrite <- E; apply H|eauto].
Qed.

Lemma poss_ops_cur l d : forall P : poss, (forall k, P k (assoc k d)) -> forall k, poss_ops l d P k (assoc k (play l d)).
Proof.
  revert d. induction l as [|o l IH]; intros d P H k; cbn [poss_ops play]; [apply H|].
  apply IH. now apply poss_step_cur.
Qed.
