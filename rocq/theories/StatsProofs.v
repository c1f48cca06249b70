From Verif Require Import Base BaseLemmas Stats.
Open Scope Q_scope.

(** specification: plain functions of the list of all values *)
Definition total (l : list Q) : Q := fold_right Qplus 0 l.
Definition mean (l : list Q) : Q := total l / inject_Z (Z.of_nat (List.length l)).
Definition last64 (l : list Q) : list Q := skipn (List.length l - 64) l.

Lemma total_app a b : total (a ++ b) == total a + total b.
Proof. unfold total. induction a as [|x a IH]; cbn [app fold_right]; [ring|]. rewrite IH. ring. Qed.

Lemma sum_first_ext n : forall f g, (forall i, (i < n)%nat -> f i = g i) -> sum_first f n = sum_first g n.
Proof. induction n as [|n IH]; intros f g H; cbn [sum_first]; [reflexivity|]. rewrite (IH f g), H; auto. Qed.

Lemma sum_first_upd n : forall f k v, (k < n)%nat ->
  sum_first (fun i => if Nat.eqb i k then v else f i) n == sum_first f n - f k + v.
Proof.
  induction n as [|n IH]; intros f k v H; [lia|]. cbn [sum_first]. destruct (Nat.eqb_spec n k) as [->|N].
  - rewrite (sum_first_ext k _ f). { ring. } intros i Hi. destruct (Nat.eqb_spec i k); [lia|reflexivity].
  - rewrite IH by lia. ring.
Qed.

Definition clamp64 (n : nat) : nat := Nat.min n 64.

(** the invariant of the ring buffer after the values [l] *)
Record inv (l : list Q) (s : stats) : Prop := {
  i_count : st_count s = N.of_nat (List.length l);
  i_sum : st_sum s == total l;
  i_next : st_next s = (List.length l mod 64)%nat;
  i_pos : forall j v, nth_error l j = Some v -> (List.length l <= j + 64)%nat -> st_values s (j mod 64)%nat = v;
  i_recent : sum_first (st_values s) (clamp64 (List.length l)) == total (last64 l)
}.

Lemma last64_snoc l v : last64 (l ++ [v]) = (if (64 <=? List.length l)%nat then tl (last64 l) else l) ++ [v].
Proof.
  unfold last64. rewrite app_length. cbn [List.length]. destruct (Nat.leb_spec 64 (List.length l)) as [H|H].
  - replace (List.length l + 1 - 64)%nat with (S (List.length l - 64)) by lia. rewrite skipn_app.
    replace (S (List.length l - 64) - List.length l)%nat with 0%nat by lia. cbn [skipn]. f_equal.
    generalize (List.length l - 64)%nat. clear. intros n. revert l.
    induction n as [|n IH]; intros l; [destruct l; reflexivity|]. destruct l; [reflexivity|]. cbn [skipn]. rewrite <- (IH l). reflexivity.
  - replace (List.length l + 1 - 64)%nat with 0%nat by lia. reflexivity.
Qed.

Lemma nth_error_skipn {A} n : forall (l : list A), nth_error l n = hd_error (skipn n l).
Proof. induction n; intros [|x l]; cbn; auto. Qed.

Lemma inv_add l s v : (N.of_nat (List.length l) + 1 < 2 ^ 64)%N -> inv l s -> inv (l ++ [v]) (stats_add s v).
Proof.
  intros HB [I1 I2 I3 I4 I5]. constructor; cbn [stats_add st_count st_sum st_next st_values].
  - rewrite I1, app_length. cbn [List.length]. rewrite N.mod_small by exact HB. lia.
  - rewrite I2, total_app. unfold total at 3. cbn [fold_right]. ring.
  - rewrite I3, app_length. cbn [List.length]. rewrite Nat.add_mod_idemp_l by lia. reflexivity.
  - intros j w Hj Hr. rewrite app_length in Hr. cbn [List.length] in Hr. rewrite I3.
    destruct (Nat.lt_ge_cases j (List.length l)) as [L|L].
    + rewrite nth_error_app1 in Hj by exact L.
      destruct (Nat.eqb_spec (j mod 64) (List.length l mod 64)) as [E|E].
      * exfalso. set (n := List.length l) in *. clearbody n.
        assert (n - j < 64)%nat by lia.
        pose proof (Nat.div_mod n 64 ltac:(lia)). pose proof (Nat.div_mod j 64 ltac:(lia)). 
        assert (n / 64 = j / 64 \/ n / 64 >= S (j / 64) \/ n / 64 < j / 64)%nat as [X|[X|X]] by lia; lia.
      * apply I4; auto. lia.
    + rewrite nth_error_app2 in Hj by exact L. destruct (j - List.length l)%nat eqn:E; [|destruct n; discriminate].
      injection Hj as <-. replace j with (List.length l) by lia. now rewrite Nat.eqb_refl.
  - rewrite app_length. cbn [List.length]. rewrite last64_snoc, total_app. unfold total at 2. cbn [fold_right].
    destruct (Nat.leb_spec 64 (List.length l)) as [H|H].
    + unfold clamp64 in *. replace (Nat.min (List.length l + 1) 64) with 64%nat by lia.
      replace (Nat.min (List.length l) 64) with 64%nat in I5 by lia.
      rewrite sum_first_upd by (rewrite I3; apply Nat.mod_upper_bound; lia). rewrite I5.
      (* the replaced value is the oldest one *)
      destruct (nth_error l (List.length l - 64)) as [w|] eqn:E; [|apply nth_error_None in E; lia].
      assert (W : st_values s (st_next s) = w).
      { rewrite I3. rewrite <- (I4 _ _ E) by lia. f_equal.
        replace (List.length l) with (List.length l - 64 + 1 * 64)%nat at 1 by lia. rewrite Nat.mod_add by lia. reflexivity. }
      rewrite W. rewrite nth_error_skipn in E. fold (last64 l) in E. destruct (last64 l) as [|x t]; [discriminate|].
      injection E as ->. cbn [tl]. unfold total. cbn [fold_right]. ring.
    + unfold clamp64 in *. replace (Nat.min (List.length l + 1) 64) with (S (List.length l)) by lia.
      replace (Nat.min (List.length l) 64) with (List.length l) in I5 by lia. cbn [sum_first].
      rewrite I3. rewrite (Nat.mod_small (List.length l)) by lia. rewrite Nat.eqb_refl.
      rewrite (sum_first_ext _ _ (st_values s)) by (intros i Hi; destruct (Nat.eqb_spec i (List.length l)); [lia|reflexivity]).
      rewrite I5. unfold last64. replace (List.length l - 64)%nat with 0%nat by lia. cbn [skipn]. ring.
Qed.

Lemma stats_of_snoc l v : stats_of (l ++ [v]) = stats_add (stats_of l) v.
Proof. unfold stats_of. now rewrite fold_left_app. Qed.

Lemma inv_of l : (N.of_nat (List.length l) < 2 ^ 64)%N -> inv l (stats_of l).
Proof.
  induction l as [|v l IH] using rev_ind; intros H.
  - constructor; try reflexivity. intros [|j] v; discriminate.
  - rewrite stats_of_snoc. rewrite app_length in H. cbn [List.length] in H. apply inv_add; [lia|]. apply IH. lia.
Qed.

(** C26: count, sum and average of all values *)
Lemma c26_total_ok : forall l, (N.of_nat (List.length l) < 2 ^ 64)%N ->
  st_count (stats_of l) = N.of_nat (List.length l) /\ st_sum (stats_of l) == total l /\
  (l <> [] -> stats_avg (stats_of l) == mean l) /\ (l = [] -> stats_avg (stats_of l) = 0).
Proof.
  intros l H. destruct (inv_of l H) as [I1 I2 _ _ _]. split; [exact I1|]. split; [exact I2|]. split.
  - intros Hl. unfold stats_avg, mean. rewrite I1. destruct (N.eqb_spec (N.of_nat (List.length l)) 0) as [E|_].
    { destruct l; [congruence|cbn in E; lia]. }
    rewrite I2. rewrite nat_N_Z. reflexivity.
  - intros ->. reflexivity.
Qed.

(** C26: the recent average is the average of the last 64 values *)
Lemma c26_recent_ok : forall l, (N.of_nat (List.length l) < 2 ^ 64)%N -> l <> [] ->
  stats_recent_avg (stats_of l) == mean (last64 l).
Proof.
  intros l H Hl. destruct (inv_of l H) as [I1 _ _ _ I5]. unfold stats_recent_avg, mean.
  assert (C : (if (64 <? st_count (stats_of l))%N then 64%N else st_count (stats_of l)) = N.of_nat (clamp64 (List.length l))).
  { rewrite I1. unfold clamp64. destruct (N.ltb_spec 64 (N.of_nat (List.length l))); lia. }
  rewrite C. assert (P : (0 < List.length l)%nat) by (destruct l; [congruence|cbn; lia]).
  destruct (N.eqb_spec (N.of_nat (clamp64 (List.length l))) 0) as [E|_]; [unfold clamp64 in E; lia|].
  rewrite Nat2N.id, I5. replace (List.length (last64 l)) with (clamp64 (List.length l)).
  - now rewrite nat_N_Z.
  - unfold last64. rewrite skipn_length. unfold clamp64. lia.
Qed.

Lemma Qltb_lt a b : Qltb a b = true <-> a < b.
Proof. unfold Qltb. rewrite negb_true_iff. rewrite <- not_true_iff_false, Qle_bool_iff. split; [apply Qnot_le_lt|apply Qlt_not_le]. Qed.
Lemma Qltb_ge a b : Qltb a b = false <-> b <= a.
Proof. rewrite <- not_true_iff_false, Qltb_lt. split; [apply Qnot_lt_le|apply Qle_not_lt]. Qed.

(** C26: the minimum is the least of all values *)
Lemma c26_min_ok : forall l, l <> [] -> (forall x, In x l -> x <= g_maxdouble) ->
  (exists m, In m l /\ st_min (stats_of l) == m) /\ (forall x, In x l -> st_min (stats_of l) <= x).
Proof.
  assert (G : forall l, (forall x, In x l -> x <= g_maxdouble) ->
     (forall x, In x l -> st_min (stats_of l) <= x) /\ st_min (stats_of l) <= g_maxdouble /\
     ((exists m, In m l /\ st_min (stats_of l) == m) \/ (st_min (stats_of l) == g_maxdouble /\ l = []))).
  { induction l as [|v l IH] using rev_ind; intros H.
    - split; [intros ? []|]. split; [apply Qle_refl|]. right. split; reflexivity.
    - destruct IH as (A & B & C). { intros; apply H, in_or_app; auto. }
      assert (Hv : v <= g_maxdouble) by (apply H, in_or_app; right; now left).
      rewrite stats_of_snoc. set (s := stats_of l) in *. cbn [stats_add st_min]. clearbody s.
      destruct (Qltb v (st_min s)) eqn:E.
      + apply Qltb_lt in E. split; [|split; [exact Hv|]].
        * intros x Hx. apply in_app_iff in Hx as [Hx|[<-|[]]]; [|apply Qle_refl]. apply Qlt_le_weak. eapply Qlt_le_trans; [exact E|auto].
        * left. exists v. split; [apply in_or_app; right; now left|reflexivity].
      + apply Qltb_ge in E. split; [|split; [exact B|]].
        * intros x Hx. apply in_app_iff in Hx as [Hx|[<-|[]]]; auto.
        * left. destruct C as [(m & Hm & Em)|[Em ->]].
          -- exists m. split; [apply in_or_app; auto|exact Em].
          -- exists v. split; [now left|]. apply Qle_antisym; [exact E|]. now rewrite Em. }
  intros l Hl H. destruct (G l H) as (A & _ & C). split; [|exact A]. destruct C as [C|[_ ->]]; [exact C|congruence].
Qed.

(** C26: the maximum is the greatest of all values, if some value is at least G_MINDOUBLE,
    the smallest positive normal gdouble *)
Lemma c26_max_ok : forall l, (exists x, In x l /\ g_mindouble <= x) ->
  (exists m, In m l /\ st_max (stats_of l) == m) /\ (forall x, In x l -> x <= st_max (stats_of l)).
Proof.
  assert (G : forall l, (forall x, In x l -> x <= st_max (stats_of l)) /\ g_mindouble <= st_max (stats_of l) /\
     ((exists m, In m l /\ st_max (stats_of l) == m) \/ (st_max (stats_of l) == g_mindouble /\ forall x, In x l -> x <= g_mindouble))).
  { induction l as [|v l IH] using rev_ind.
    - split; [intros ? []|]. split; [apply Qle_refl|]. right. split; [reflexivity|intros ? []].
    - destruct IH as (A & B & C). rewrite stats_of_snoc. set (s := stats_of l) in *. cbn [stats_add st_max]. clearbody s.
      destruct (Qltb (st_max s) v) eqn:E.
      + apply Qltb_lt in E. split; [|split].
        * intros x Hx. apply in_app_iff in Hx as [Hx|[<-|[]]]; [|apply Qle_refl]. apply Qlt_le_weak. eapply Qle_lt_trans; [apply A, Hx|exact E].
        * apply Qlt_le_weak. eapply Qle_lt_trans; eauto.
        * left. exists v. split; [apply in_or_app; right; now left|reflexivity].
      + apply Qltb_ge in E. split; [|split; [exact B|]].
        * intros x Hx. apply in_app_iff in Hx as [Hx|[<-|[]]]; auto.
        * destruct C as [(m & Hm & Em)|[Em C]].
          -- left. exists m. split; [apply in_or_app; auto|exact Em].
          -- right. split; [exact Em|]. intros x Hx. apply in_app_iff in Hx as [Hx|[<-|[]]]; auto. now rewrite <- Em. }
  intros l (x & Hx & Hm). destruct (G l) as (A & B & C). split; [|exact A]. destruct C as [C|[Em C]]; [exact C|].
  exists x. split; [exact Hx|]. apply Qle_antisym; [|auto]. now rewrite Em.
Qed.

(** the maximum of values that are all zero or negative is reported as G_MINDOUBLE *)
Lemma c26_max_refuted : exists l, l <> [] /\ (forall x, In x l -> x < 0) /\ 0 < st_max (stats_of l).
Proof.
  exists [(-(1))]. split; [discriminate|]. split; [intros x [<-|[]]; reflexivity|]. vm_compute. reflexivity.
Qed.
