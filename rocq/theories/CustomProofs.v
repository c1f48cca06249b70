From Verif Require Import Base BaseLemmas Slot Bootname Mark ContextSpec Custom CustomSpec.
From Verif Require Context ContextProofs.

Lemma cstring_text : forall s, text_only s -> Context.cstring s = s.
Proof.
  unfold text_only, no_char. induction s as [|a s IH]; intros H; [reflexivity|]. cbn [all_chars] in H. apply andb_prop in H as [H1 H2].
  cbn [Context.cstring]. apply negb_true_iff in H1. rewrite H1, IH by exact H2. reflexivity.
Qed.
Lemma strip_unique : forall out v, trimmed out v -> v <> "" -> Context.strstrip out = v.
Proof. intros out v H Hv. symmetry. exact (ContextProofs.trimmed_unique out v _ H (ContextProofs.strstrip_ok out) Hv). Qed.

(** ** any program *)
Lemma c66_primary_ok : forall W (run : program W) slots w w' s, custom_get_primary run slots w = (w', Ok s) ->
  exists out b, run w ["get-primary"] = (w', Ran out (Some 0)) /\ In s slots /\ sl_bootname s = Some b /\ (text_only out -> trimmed out b).
Proof.
  intros W run slots w w' s H. unfold custom_get_primary, custom_backend_get in H. destruct (run w ["get-primary"]) as [w1 o] eqn:E.
  destruct o as [|out [n|]]; try discriminate. destruct (Nat.eqb_spec n 0) as [->|_]; [|discriminate].
  destruct (find _ slots) as [t|] eqn:F; [|discriminate]. apply pair_equal_spec in H as [<- H]. apply Ok_inj in H. subst t.
  apply find_some in F as [F1 F2]. destruct (sl_bootname s) as [b|] eqn:B; [|discriminate]. apply String.eqb_eq in F2.
  exists out, b. split; [reflexivity|]. split; [exact F1|]. split; [reflexivity|]. intros T. rewrite cstring_text in F2 by exact T.
  rewrite <- F2. apply ContextProofs.strstrip_ok.
Qed.
Lemma c66_primary_complete_ok : forall W (run : program W) slots w w' o s b, bootnames_unique slots -> In s slots -> sl_bootname s = Some b -> b <> "" ->
  run w ["get-primary"] = (w', o) -> answers o b -> custom_get_primary run slots w = (w', Ok s).
Proof.
  intros W run slots w w' o s b Hu Hs Hb Hn Hr (out & -> & T & P). unfold custom_get_primary, custom_backend_get. rewrite Hr.
  cbn [Nat.eqb]. rewrite cstring_text by exact T. rewrite (strip_unique out b P Hn).
  destruct (find _ slots) as [t|] eqn:F.
  - apply find_some in F as [F1 F2]. destruct (sl_bootname t) as [x|] eqn:B; [|discriminate]. apply String.eqb_eq in F2. subst x.
    rewrite (Hu s t b Hs F1 Hb B). reflexivity.
  - exfalso. apply (find_none _ _ F) in Hs. rewrite Hb, String.eqb_refl in Hs. discriminate.
Qed.
(** one run with the documented arguments, and an error unless it answers with a configured bootname *)
Lemma c66_primary_error_ok : forall W (run : program W) slots w w' o, run w ["get-primary"] = (w', o) ->
  failed o \/ (exists v, answers o v /\ v <> "" /\ forall s, In s slots -> sl_bootname s <> Some v) ->
  custom_get_primary run slots w = (w', Err).
Proof.
  intros W run slots w w' o Hr H. unfold custom_get_primary, custom_backend_get. rewrite Hr. destruct H as [H|(v & (out & -> & T & P) & Hv & Hn)].
  - destruct o as [|out [n|]]; try reflexivity. destruct (Nat.eqb_spec n 0) as [->|_]; [exfalso; exact (H out eq_refl)|reflexivity].
  - cbn [Nat.eqb]. rewrite cstring_text by exact T. rewrite (strip_unique out v P Hv). destruct (find _ slots) as [t|] eqn:F; [|reflexivity].
    exfalso. apply find_some in F as [F1 F2]. destruct (sl_bootname t) as [x|] eqn:B; [|discriminate]. apply String.eqb_eq in F2. subst x. exact (Hn t F1 B).
Qed.
Lemma c66_state_ok : forall W (run : program W) s w w' o r, run w (match sl_bootname s with Some b => ["get-state"; b] | None => ["get-state"] end) = (w', o) ->
  custom_get_state run s w = (w', r) -> (forall out c, o = Ran out c -> text_only out) ->
  (r = Ok true <-> answers o "good") /\ (r = Ok false <-> answers o "bad").
Proof.
  intros W run s w w' o r Hr H T. unfold custom_get_state, custom_backend_get in H. rewrite Hr in H. apply pair_equal_spec in H as [_ <-].
  assert (N : forall v, (forall out, o <> Ran out (Some 0)) -> ~ answers o v) by (intros v X (out & E & _); exact (X out E)).
  assert (A : forall out v, o = Ran out (Some 0) -> answers o v -> v <> "" -> Context.strstrip out = v).
  { intros out v E (out' & E' & _ & P) Hv. rewrite E in E'. injection E' as <-. apply strip_unique; assumption. }
  destruct o as [|out [n|]].
  - split; (split; [discriminate|intros X; exfalso; revert X; apply N; discriminate]).
  - destruct (Nat.eqb_spec n 0) as [->|Hn].
    + pose proof (T out _ eq_refl) as T'. rewrite cstring_text by exact T'.
      assert (B : answers (Ran out (Some 0)) (Context.strstrip out)) by (exists out; split; [reflexivity|]; split; [exact T'|apply ContextProofs.strstrip_ok]).
      destruct (String.eqb_spec (Context.strstrip out) "good") as [Eg|Eg].
      * rewrite Eg in B. split; [split; [intros _; exact B|reflexivity]|]. split; [discriminate|].
        intros X. apply (A out) in X; [|reflexivity|discriminate]. congruence.
      * destruct (String.eqb_spec (Context.strstrip out) "bad") as [Eb|Eb].
        -- rewrite Eb in B. split; [|split; [intros _; exact B|reflexivity]]. split; [discriminate|].
           intros X. apply (A out) in X; [|reflexivity|discriminate]. congruence.
        -- split; (split; [discriminate|]); intros X; apply (A out) in X; try reflexivity; try discriminate; congruence.
    + split; (split; [discriminate|intros X; exfalso; revert X; apply N; intros out' E; injection E as _ E; congruence]).
  - split; (split; [discriminate|intros X; exfalso; revert X; apply N; discriminate]).
Qed.
Lemma c66_set_ok : forall W (run : program W) s b, sl_bootname s = Some b -> forall w w' r,
  (custom_set_primary run s w = (w', r) -> exists o, run w ["set-primary"; b] = (w', o) /\ (r = true <-> exists out, o = Ran out (Some 0))) /\
  (forall g, custom_set_state run s g w = (w', r) ->
     exists o, run w ["set-state"; b; if g then "good" else "bad"] = (w', o) /\ (r = true <-> exists out, o = Ran out (Some 0))).
Proof.
  intros W run s b Hb w w' r.
  assert (G : forall o : outcome, (match o with Ran _ (Some n) => (n =? 0)%nat | _ => false end) = true <-> exists out, o = Ran out (Some 0)).
  { intros [|out [n|]].
    - split; [discriminate|intros (x & X); discriminate].
    - rewrite Nat.eqb_eq. split; [intros ->; eauto|intros (x & X); congruence].
    - split; [discriminate|intros (x & X); discriminate]. }
  split.
  - unfold custom_set_primary, custom_backend_set. rewrite Hb. destruct (run w ["set-primary"; b]) as [w1 o]. intros H.
    apply pair_equal_spec in H as [<- <-]. exists o. split; [reflexivity|apply G].
  - intros g. unfold custom_set_state, custom_backend_set. rewrite Hb. destruct (run w _) as [w1 o]. intros H.
    apply pair_equal_spec in H as [<- <-]. exists o. split; [reflexivity|apply G].
Qed.

(** ** programs as documented *)
Definition good_of (W : Type) (view : W -> bootview) (w : W) (b : string) : bool := bv_good (view w) b.
Lemma not_failed : forall o, failed o -> ~ exists out, o = Ran out (Some 0).
Proof. intros o H (out & E). exact (H out E). Qed.
Lemma step_ok : forall W (run : program W) view op w w' r, conforms run view -> boot_set BCustom run op w = (w', r) ->
  bv_primary (view w') = match last_primary [(op, r)] with Some b => b | None => bv_primary (view w) end /\
  forall x, bv_good (view w') x = match last_state x [(op, r)] with Some g => g | None => bv_good (view w) x end.
Proof.
  intros W run view op w w' r C H. destruct op as [s g|s]; cbn [boot_set] in H; destruct (sl_bootname s) as [b|] eqn:B.
  - destruct (proj2 (c66_set_ok W run s b B w w' r) g H) as (o & Hr & Ho). destruct (cf_set_state _ _ C _ _ _ _ _ Hr) as [(H1 & H2 & H3)|(H1 & H2)].
    + apply Ho in H1. subst r. cbn [last_primary last_state]. rewrite B. split; [exact H2|]. intros x. rewrite H3. destruct (String.eqb x b); reflexivity.
    + destruct r; [exfalso; apply (not_failed _ H1), Ho; reflexivity|]. cbn. rewrite H2. auto.
  - unfold custom_set_state, custom_backend_set in H. rewrite B in H. apply pair_equal_spec in H as [<- <-]. cbn. auto.
  - destruct (proj1 (c66_set_ok W run s b B w w' r) H) as (o & Hr & Ho). destruct (cf_set_primary _ _ C _ _ _ _ Hr) as [(H1 & H2 & H3)|(H1 & H2)].
    + apply Ho in H1. subst r. cbn [last_primary last_state]. rewrite B. split; [exact H2|]. intros x. rewrite H3. reflexivity.
    + destruct r; [exfalso; apply (not_failed _ H1), Ho; reflexivity|]. cbn. rewrite H2. auto.
  - unfold custom_set_primary, custom_backend_set in H. rewrite B in H. apply pair_equal_spec in H as [<- <-]. cbn. auto.
Qed.
Lemma last_primary_cons : forall e h, last_primary (e :: h) = match last_primary h with Some x => Some x | None => last_primary [e] end.
Proof. intros [[s g|s] []] h; cbn; destruct (last_primary h); reflexivity. Qed.
Lemma last_state_cons : forall x e h, last_state x (e :: h) = match last_state x h with Some g => Some g | None => last_state x [e] end.
Proof. intros x [[s g|s] []] h; cbn; destruct (last_state x h); reflexivity. Qed.
(** after any history the boot loader has what was last set successfully *)
Lemma c66_history_ok : forall W (run : program W) view ops w w' rs, conforms run view -> requests BCustom run ops w = (w', rs) ->
  List.length rs = List.length ops /\
  bv_primary (view w') = match last_primary (combine ops rs) with Some b => b | None => bv_primary (view w) end /\
  forall x, bv_good (view w') x = match last_state x (combine ops rs) with Some g => g | None => bv_good (view w) x end.
Proof.
  intros W run view ops. induction ops as [|op ops IH]; intros w w' rs C H.
  - apply pair_equal_spec in H as [<- <-]. cbn. auto.
  - cbn [requests] in H. destruct (boot_set BCustom run op w) as [w1 r] eqn:E1. destruct (requests BCustom run ops w1) as [w2 bs] eqn:E2.
    apply pair_equal_spec in H as [<- <-]. destruct (IH _ _ _ C E2) as (L & P & G). destruct (step_ok _ _ _ _ _ _ _ C E1) as (P1 & G1).
    cbn [List.length combine]. split; [rewrite L; reflexivity|]. split.
    + rewrite last_primary_cons, P, P1. destruct (last_primary (combine ops bs)); reflexivity.
    + intros x. rewrite last_state_cons, G, G1. destruct (last_state x (combine ops bs)); reflexivity.
Qed.
(** and this is what rauc reports, if the program answers *)
Lemma c66_report_ok : forall W (run : program W) view ops w w' rs slots, conforms run view -> bootnames_unique slots ->
  requests BCustom run ops w = (w', rs) ->
  (forall w2 s s' b, custom_get_primary run slots w' = (w2, Ok s') -> In s slots -> sl_bootname s = Some b -> b <> "" ->
     last_primary (combine ops rs) = Some b -> s' = s) /\
  (forall w2 s b g r, sl_bootname s = Some b -> custom_get_state run s w' = (w2, Ok r) ->
     last_state b (combine ops rs) = Some g -> r = g).
Proof.
  intros W run view ops w w' rs slots C Hu H. destruct (c66_history_ok _ _ _ _ _ _ _ C H) as (_ & P & G). split.
  - intros w2 s s' b Hg Hs Hb Hn Hl. destruct (c66_primary_ok _ _ _ _ _ _ Hg) as (out & b' & Hr & Hs' & Hb' & _).
    destruct (cf_get_primary _ _ C _ _ _ Hr) as (_ & [A|F]); [|exfalso; exact (F out eq_refl)].
    rewrite P, Hl in A. rewrite (c66_primary_complete_ok _ _ _ _ _ _ _ _ Hu Hs Hb Hn Hr A) in Hg. apply pair_equal_spec in Hg as [_ Hg]. apply Ok_inj in Hg. congruence.
  - intros w2 s b g r Hb Hg Hl. destruct (run w' ["get-state"; b]) as [w3 o] eqn:Hr. destruct (cf_get_state _ _ C _ _ _ _ Hr) as (_ & A).
    assert (w3 = w2) as ->. { unfold custom_get_state, custom_backend_get in Hg. rewrite Hb, Hr in Hg. apply pair_equal_spec in Hg as [-> _]. reflexivity. }
    destruct A as [A|F].
    + rewrite G, Hl in A. destruct A as (out & -> & T & A). unfold custom_get_state, custom_backend_get in Hg. rewrite Hb, Hr in Hg. cbn [Nat.eqb] in Hg.
      rewrite cstring_text in Hg by exact T. rewrite (strip_unique _ _ A) in Hg by (destruct g; discriminate). apply pair_equal_spec in Hg as [_ Hg].
      destruct g; cbn in Hg; apply Ok_inj in Hg; congruence.
    + exfalso. unfold custom_get_state, custom_backend_get in Hg. rewrite Hb, Hr in Hg. cbv beta iota zeta in Hg. apply pair_equal_spec in Hg as [_ Hg].
      destruct o as [|out [n|]]; [discriminate|destruct n as [|n]; [exact (F out eq_refl)|discriminate]|discriminate].
Qed.

(** ** the booted slot *)
Lemma c66_current_ok : forall W (run : program W) w w' v, custom_get_current run w = (w', Ok v) ->
  v <> "" /\ exists out, run w ["get-current"] = (w', Ran out (Some 0)) /\ (text_only out -> exists rest, out = v \/ out = (v ++ String "010" rest)%string).
Proof.
  intros W run w w' v H. unfold custom_get_current in H. destruct (run w ["get-current"]) as [w1 o] eqn:E. destruct o as [|out c]; [discriminate|].
  apply pair_equal_spec in H as [<- H]. unfold custom_get_current_bootname in H. destruct c as [n|]; [|discriminate].
  destruct (Nat.eqb_spec n 0) as [->|_]; [|discriminate]. cbn [negb] in H. destruct (first_line out) as [l|] eqn:L; [|discriminate].
  destruct (String.eqb_spec l "") as [|Hl]; [discriminate|]. apply Ok_inj in H. subst v. split; [exact Hl|]. exists out. split; [reflexivity|].
  intros T. unfold first_line in L. destruct out as [|a out]; [discriminate|]. destruct (split_on "010" (String a out)) as [|x xs] eqn:S1; [discriminate|].
  apply Some_inj in L. assert (J : join (String "010" "") (x :: xs) = String a out) by (rewrite <- S1; apply join_split_on).
  assert (Tx : text_only x).
  { unfold text_only in *. rewrite <- J in T. destruct xs; [exact T|]. cbn [join] in T. change (no_char Ascii.zero (x ++ String "010" "" ++ join (String "010" "") (s :: xs)) = true) in T.
    rewrite no_char_app in T. apply andb_prop in T as [T _]. exact T. }
  rewrite cstring_text in L by exact Tx. subst l. destruct xs as [|y ys].
  - exists "". left. symmetry. exact J.
  - exists (join (String "010" "") (y :: ys)). right. symmetry. exact J.
Qed.
(** the same answer that is accepted for get-primary is not understood for get-current *)
Lemma c66_current_blank_refuted : exists (run : program unit) slots s,
  In s slots /\ sl_bootname s = Some "A" /\ bootnames_unique slots /\
  snd (run tt ["get-primary"]) = snd (run tt ["get-current"]) /\ answers (snd (run tt ["get-current"])) "A" /\
  custom_get_primary run slots tt = (tt, Ok s) /\
  exists v, custom_get_current run tt = (tt, Ok v) /\ forall t, In t slots -> sl_bootname t <> Some v.
Proof.
  set (s := mkSlot "rootfs.0" "rootfs" "/dev/a" "ext4" (Some "A") None false true).
  set (run := fun (w : unit) (_ : list string) => (w, Ran ("A " ++ String "010" "") (Some 0))).
  exists run, [s], s. split; [left; reflexivity|]. split; [reflexivity|]. split.
  { intros x y b [<-|[]] [<-|[]] _ _. reflexivity. }
  split; [reflexivity|]. split.
  { exists ("A " ++ String "010" "")%string. split; [reflexivity|]. split; [reflexivity|]. exists "", (" " ++ String "010" "")%string.
    split; [reflexivity|]. split; [reflexivity|]. split; [reflexivity|]. split.
    - intros c r E. injection E as <- _. reflexivity.
    - intros c r E. destruct r as [|x [|y r]]; cbn in E; try discriminate. injection E as <-. reflexivity. }
  split; [reflexivity|]. exists "A ". split; [reflexivity|]. intros t [<-|[]]. discriminate.
Qed.

(** ** other boot loaders *)
Lemma c66_noop_ok : forall W (run : program W) op w slots s,
  boot_set BNoop run op w = (w, true) /\ boot_get_primary BNoop run slots w = (w, Err) /\ boot_get_state BNoop run s w = (w, Err) /\
  boot_set BUnknown run op w = (w, false).
Proof. intros. repeat split. Qed.
