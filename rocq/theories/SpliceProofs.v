From Coq Require Import Sorted.
From Verif Require Import Base Splice.
Open Scope list_scope.

Lemma block_pos : forall k, 0 < block k.
Proof. intros k. unfold block. lia. Qed.

Lemma loop_ok : forall progress size calls rest sum x o p, splice_loop progress size calls rest sum = (x, o, p) ->
  (exists tail, rest = o ++ tail) /\ (x = SpliceOk -> o = rest) /\ (x = SpliceCrash -> size = 0 /\ progress = true) /\
  (size = sum + List.length rest ->
     Forall (fun v => v <= 100) p /\ StronglySorted le p /\ Forall (fun v => sum * 100 / size <= v) p /\
     (x = SpliceOk -> progress = true -> last p 0 = 100 /\ p <> [])).
Proof.
  intros progress size calls. induction calls as [|c calls IH]; intros rest sum x o p H; cbn [splice_loop] in H.
  - injection H as <- <- <-. split; [now exists rest|]. split; [discriminate|]. split; [discriminate|]. intros _. repeat split; constructor || discriminate.
  - destruct c as [k|].
    2: { injection H as <- <- <-. split; [now exists rest|]. split; [discriminate|]. split; [discriminate|]. intros _. repeat split; constructor || discriminate. }
    set (n := Nat.min (block k) (List.length rest)) in H.
    assert (Hn : n <= List.length rest) by (subst n; lia).
    assert (H0 : n = 0 -> rest = []) by (intros E; subst n; pose proof (block_pos k); destruct rest; [reflexivity|cbn [List.length] in E; lia]).
    assert (S0 : exists tail, rest = firstn n rest ++ tail) by (exists (skipn n rest); now rewrite firstn_skipn).
    clearbody n.
    destruct (progress && Nat.eqb size 0) eqn:EC.
    { injection H as <- <- <-. apply andb_true_iff in EC as [EP ES]. apply Nat.eqb_eq in ES.
      split; [exact S0|]. split; [discriminate|]. split; [now split|]. intros _. repeat split; constructor || discriminate. }
    assert (PC : size = sum + List.length rest -> progress = true -> (sum + n) * 100 / size <= 100 /\ sum * 100 / size <= (sum + n) * 100 / size /\ (rest = [] -> (sum + n) * 100 / size = 100)).
    { intros E EP. rewrite EP in EC. cbn in EC. apply Nat.eqb_neq in EC. split; [|split].
      - apply Nat.div_le_upper_bound; [exact EC|]. nia.
      - apply Nat.div_le_mono; [exact EC|]. lia.
      - intros R. subst rest. cbn in E, Hn. replace (sum + n) with size by lia. rewrite Nat.mul_comm. now apply Nat.div_mul. }
    destruct (Nat.eqb_spec n 0) as [E0|N0].
    { injection H as <- <- <-. specialize (H0 E0). split; [exact S0|]. split; [intros _; rewrite H0; now rewrite firstn_nil|]. split; [discriminate|].
      intros E. destruct progress; [|repeat split; constructor || discriminate]. destruct (PC E eq_refl) as (P1 & P2 & P3).
      split; [constructor; [exact P1|constructor]|]. split; [constructor; constructor|]. split; [constructor; [exact P2|constructor]|]. intros _ _. split; [cbn [last]; now apply P3|discriminate]. }
    destruct (splice_loop progress size calls (skipn n rest) (sum + n)) as [[x' o'] p'] eqn:EL. injection H as <- <- <-.
    destruct (IH _ _ _ _ _ EL) as ((tail & I1) & I2 & I3 & I4).
    split; [exists tail; now rewrite <- app_assoc, <- I1, firstn_skipn|]. split; [intros E; rewrite (I2 E); apply firstn_skipn|]. split; [exact I3|].
    intros E. assert (E' : size = sum + n + List.length (skipn n rest)) by (rewrite skipn_length; lia).
    destruct (I4 E') as (J1 & J2 & J3 & J4). destruct progress; cbn [app].
    + destruct (PC E eq_refl) as (P1 & P2 & P3). split; [now constructor|]. split; [now constructor|]. split.
      * constructor; [exact P2|]. eapply Forall_impl; [|exact J3]. cbn beta. intros v Hv. lia.
      * intros X _. destruct (J4 X eq_refl) as [J5 J6]. split; [|discriminate]. destruct p' as [|v p']; [contradiction|exact J5].
    + split; [exact J1|]. split; [exact J2|]. split.
      * eapply Forall_impl; [|exact J3]. cbn beta. intros v Hv. 
        assert (sum * 100 / size <= (sum + n) * 100 / size); [|lia]. destruct size as [|sz]; [reflexivity|]. apply Nat.div_le_mono; [discriminate|]. lia.
      * intros X Y. discriminate Y.
Qed.

Lemma c73_delivered_ok : forall progress stat_ok close_ok calls image x o p,
  splice_image progress stat_ok close_ok calls image = (x, o, p) ->
  (exists tail, image = o ++ tail) /\ (x = SpliceOk -> o = image).
Proof.
  intros progress stat_ok close_ok calls image x o p H. unfold splice_image in H. destruct stat_ok; cbn [negb] in H; [|injection H as <- <- <-; split; [now exists image|discriminate]].
  destruct (splice_loop progress (List.length image) calls image 0) as [[x' o'] p'] eqn:E. destruct (loop_ok _ _ _ _ _ _ _ _ E) as (A & B & _).
  destruct x'; injection H as <- <- <-; split; try exact A; try discriminate. intros _. now apply B.
Qed.

Lemma c73_percentage_ok : forall stat_ok close_ok calls image x o p,
  splice_image true stat_ok close_ok calls image = (x, o, p) ->
  Forall (fun v => v <= 100) p /\ StronglySorted le p /\ (x = SpliceOk -> last p 0 = 100).
Proof.
  intros stat_ok close_ok calls image x o p H. unfold splice_image in H. destruct stat_ok; cbn [negb] in H; [|injection H as <- <- <-; repeat split; constructor || discriminate].
  destruct (splice_loop true (List.length image) calls image 0) as [[x' o'] p'] eqn:E. destruct (loop_ok _ _ _ _ _ _ _ _ E) as (_ & _ & _ & D). destruct (D eq_refl) as (D1 & D2 & _ & D4).
  destruct x'; injection H as <- <- <-; (split; [exact D1|]; split; [exact D2|]); try discriminate. intros _. now apply (D4 eq_refl eq_refl).
Qed.

(** it ends: no more calls than bytes, and one *)
Lemma loop_ends : forall progress size calls rest sum, (0 < size \/ progress = false) -> (forall c, In c calls -> c <> Fails) -> List.length rest < List.length calls ->
  fst (fst (splice_loop progress size calls rest sum)) = SpliceOk.
Proof.
  intros progress size calls. induction calls as [|c calls IH]; intros rest sum Hs Hf Hl; [cbn in Hl; lia|]. destruct c as [k|]; [|exfalso; apply (Hf Fails); [now left|reflexivity]].
  cbn [splice_loop]. set (n := Nat.min (block k) (List.length rest)).
  assert (H0 : rest <> [] -> 0 < n) by (intros Hr; subst n; pose proof (block_pos k); destruct rest; [contradiction|cbn [List.length]; lia]).
  assert (H1 : n <= List.length rest) by (subst n; lia). clearbody n.
  replace (progress && Nat.eqb size 0) with false.
  2: { symmetry. apply andb_false_iff. destruct Hs as [Hs| ->]; [right; apply Nat.eqb_neq; lia|now left]. }
  destruct (Nat.eqb_spec n 0) as [E|N]; [reflexivity|].
  specialize (IH (skipn n rest) (sum + n) Hs). assert (X : fst (fst (splice_loop progress size calls (skipn n rest) (sum + n))) = SpliceOk).
  { apply IH; [intros c Hc; apply Hf; now right|]. rewrite skipn_length. cbn [List.length] in Hl. lia. }
  destruct (splice_loop progress size calls (skipn n rest) (sum + n)) as [[x o] p]. exact X.
Qed.
Lemma c73_ends_ok : forall progress calls image, image <> [] \/ progress = false -> (forall c, In c calls -> c <> Fails) -> List.length image < List.length calls ->
  exists p, splice_image progress true true calls image = (SpliceOk, image, p).
Proof.
  intros progress calls image Hi Hf Hl. destruct (splice_image progress true true calls image) as [[x o] p] eqn:E.
  assert (x = SpliceOk).
  { pose proof (loop_ends progress (List.length image) calls image 0) as L. unfold splice_image in E. cbn [negb] in E.
    destruct (splice_loop progress (List.length image) calls image 0) as [[x' o'] p']. cbn [fst] in L. rewrite L in E; auto.
    - now injection E as <- _ _.
    - destruct Hi as [Hi|Hi]; [left; destruct image; [contradiction|cbn; lia]|now right]. }
  subst x. rewrite (proj2 (c73_delivered_ok _ _ _ _ _ _ _ _ E) eq_refl). now exists p.
Qed.

Lemma c73_no_crash_ok : forall progress stat_ok close_ok calls image, image <> [] \/ progress = false ->
  fst (fst (splice_image progress stat_ok close_ok calls image)) <> SpliceCrash.
Proof.
  intros progress stat_ok close_ok calls image Hi. unfold splice_image. destruct stat_ok; cbn [negb]; [|discriminate].
  destruct (splice_loop progress (List.length image) calls image 0) as [[x o] p] eqn:E. destruct (loop_ok _ _ _ _ _ _ _ _ E) as (_ & _ & C & _).
  destruct x; cbn [fst]; try discriminate; [destruct close_ok; discriminate|]. destruct (C eq_refl) as [C1 C2]. exfalso.
  destruct Hi as [Hi|Hi]; [destruct image; [contradiction|discriminate C1]|congruence].
Qed.

(** .. but an empty image with progress divides by zero, whatever else happens *)
Lemma c73_empty_refuted : forall k calls close_ok, splice_image true true close_ok (Moves k :: calls) [] = (SpliceCrash, [], []).
Proof. intros k calls close_ok. unfold splice_image. cbn [negb splice_loop List.length]. rewrite Nat.min_0_r. reflexivity. Qed.
