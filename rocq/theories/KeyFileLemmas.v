From Verif Require Import Base BaseLemmas KeyFile.

Lemma assoc_set_eq {B} k (v : B) l : assoc k (assoc_set k v l) = Some v.
Proof.
  induction l as [|[k' v'] r IH]; cbn; [now rewrite String.eqb_refl|].
  destruct (String.eqb k' k) eqn:E; cbn; rewrite E; auto.
Qed.
Lemma assoc_set_neq {B} k k' (v : B) l : k <> k' -> assoc k' (assoc_set k v l) = assoc k' l.
Proof.
  intros H. induction l as [|[x y] r IH]; cbn.
  - destruct (String.eqb_spec k k'); congruence.
  - destruct (String.eqb_spec x k) as [->|]; cbn.
    + destruct (String.eqb_spec k k'); congruence.
    + now rewrite IH.
Qed.
Lemma assoc_remove_eq {B} k (l : list (string * B)) : assoc k (assoc_remove k l) = None.
Proof.
  induction l as [|[x y] r IH]; cbn; [reflexivity|]. destruct (String.eqb x k) eqn:E; cbn; [auto|]. now rewrite E.
Qed.
Lemma assoc_remove_neq {B} k k' (l : list (string * B)) : k <> k' -> assoc k' (assoc_remove k l) = assoc k' l.
Proof.
  intros H. induction l as [|[x y] r IH]; cbn; [reflexivity|]. destruct (String.eqb_spec x k) as [->|]; cbn.
  - destruct (String.eqb_spec k k'); [congruence|]. exact IH.
  - destruct (String.eqb x k'); [reflexivity|exact IH].
Qed.
Lemma assoc_in {B} k (v : B) l : assoc k l = Some v -> In (k, v) l.
Proof.
  induction l as [|[x y] r IH]; cbn; [discriminate|]. destruct (String.eqb_spec x k) as [->|]; intros H; [|auto].
  apply Some_inj in H. subst. auto.
Qed.
Lemma assoc_none {B} k (l : list (string * B)) : assoc k l = None <-> ~ In k (map fst l).
Proof.
  induction l as [|[x y] r IH]; cbn; [tauto|]. destruct (String.eqb_spec x k) as [->|].
  - split; [discriminate|tauto].
  - rewrite IH. tauto.
Qed.
Lemma assoc_set_new {B} k (v : B) l : assoc k l = None -> assoc_set k v l = l ++ [(k, v)].
Proof.
  induction l as [|[x y] r IH]; cbn; [reflexivity|]. destruct (String.eqb x k); [discriminate|].
  intros H. now rewrite IH.
Qed.
Lemma assoc_set_keys {B} k (v : B) l : map fst (assoc_set k v l) = if existsb (String.eqb k) (map fst l) then map fst l else map fst l ++ [k].
Proof.
  induction l as [|[x y] r IH]; cbn; [reflexivity|]. rewrite (String.eqb_sym k x). destruct (String.eqb x k); cbn; [reflexivity|].
  rewrite IH. now destruct (existsb _ _).
Qed.
Lemma assoc_app {B} k (l r : list (string * B)) : assoc k (l ++ r) = match assoc k l with Some v => Some v | None => assoc k r end.
Proof. induction l as [|[x y] l IH]; cbn; [reflexivity|]. destruct (String.eqb x k); auto. Qed.

Lemma kf_get_set_eq kf g k v : kf_get (kf_set kf g k v) g k = Some v.
Proof. unfold kf_get, kf_set, kf_group. now rewrite !assoc_set_eq. Qed.
Lemma kf_get_set_neq kf g k v g' k' : (g <> g' \/ k <> k') -> kf_get (kf_set kf g k v) g' k' = kf_get kf g' k'.
Proof.
  intros H. unfold kf_get, kf_set, kf_group. destruct (string_dec g g') as [->|N].
  - rewrite assoc_set_eq. destruct H as [H|H]; [congruence|]. rewrite assoc_set_neq by exact H.
    destruct (assoc g' kf); reflexivity.
  - now rewrite assoc_set_neq.
Qed.

Lemma value_list_list_value l : Forall (fun s => no_char ";" s = true) l -> value_list (list_value l) = l.
Proof.
  intros H. unfold value_list.
  assert (E : split_on ";" (list_value l) = l ++ [""]).
  { induction H as [|s l Hs Hl IH]; [reflexivity|].
    assert (X : list_value (s :: l) = (s ++ String ";" (list_value l))%string).
    { unfold list_value. cbn [map join]. destruct l as [|s' l]; cbn [map join]; rewrite ?app_assoc_s; reflexivity. }
    rewrite X. rewrite split_on_cons by exact Hs. now rewrite IH. }
  rewrite E. rewrite last_last. rewrite removelast_last. reflexivity.
Qed.

Lemma strtoull_all_print n : (n < 2 ^ 64)%N -> strtoull_all (print_num 10 n) = Some n.
Proof.
  intros H. unfold strtoull_all. rewrite strtoull_print by auto.
  pose proof (print_num_chars 10 n ltac:(lia)) as C.
  destruct (print_num 10 n) as [|c s] eqn:E; [now destruct (print_num_nonempty 10 n)|].
  assert (C' := C). cbn [all_chars] in C'. apply andb_true_iff in C' as [C1 _].
  destruct (is_digit_not_special 10 c C1) as (P1 & P2 & P3 & _).
  cbn [skip_space]. rewrite P1, P2, P3. cbn [orb andb].
  assert (all_chars (fun a => match digit_val a with Some d => (d <? 10)%N | None => false end) (String c s) = true) as ->; [|reflexivity].
  revert C. apply all_chars_impl. intros a Ha. exact Ha.
Qed.
