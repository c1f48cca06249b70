(** Linking the content directory into the working directory. *)
From Verif Require Import Base KeyFile KeyFileLemmas Image Manifest BundleCreate BundleCreateSpec.

Section NodeInd.
  Variable P : node -> Prop.
  Hypothesis Hreg : forall i, P (Reg i).
  Hypothesis Hlnk : forall t, P (Lnk t).
  Hypothesis Hoth : P Oth.
  Hypothesis Hdir : forall es, Forall (fun x => P (snd x)) es -> P (Dir es).
  Fixpoint node_ind' (n : node) : P n :=
    match n with
    | Reg i => Hreg i | Lnk t => Hlnk t | Oth => Hoth
    | Dir es => Hdir es ((fix f (l : dir) : Forall (fun x => P (snd x)) l :=
                            match l with
                            | [] => Forall_nil _
                            | x :: r => Forall_cons x (node_ind' (snd x)) (f r)
                            end) es)
    end.
End NodeInd.

Fixpoint each_ (ok : list string -> bool) (d b : nat) (up : list dir) (top : bool) (path : list string)
  (es : dir) (l : dir) : bool * dir :=
  match l with
  | [] => (true, [])
  | (name, c) :: r =>
      if String.eqb name WD then each_ ok d b up top path es r else
      if negb (content_ok top name c) then (false, []) else
      let p := path ++ [name] in
      let sub (x : bool * dir) :=
        if fst x then (fst (each_ ok d b up top path es r), (name, Dir (snd x)) :: snd (each_ ok d b up top path es r))
        else (false, [(name, Dir (snd x))]) in
      let one := if ok p then (fst (each_ ok d b up top path es r), (name, c) :: snd (each_ ok d b up top path es r))
                 else (false, []) in
      match c with
      | Dir _ => if ok p then sub (link_any ok d b (es :: up) false p c) else (false, [])
      | Lnk t =>
          match (match b with O => FNone | S b' => follow b' up es t end) with
          | FDir es' up' b' =>
              match d with
              | O => (false, [])
              | S d' => if ok p then sub (link_any ok d' b' up' false p (Dir es')) else (false, [])
              end
          | FWork => (false, [])
          | _ => one
          end
      | _ => one
      end
  end.

Lemma each_cons : forall ok d b up top path es name c r, each_ ok d b up top path es ((name, c) :: r) =
      if String.eqb name WD then each_ ok d b up top path es r else
      if negb (content_ok top name c) then (false, []) else
      let p := path ++ [name] in
      let sub (x : bool * dir) :=
        if fst x then (fst (each_ ok d b up top path es r), (name, Dir (snd x)) :: snd (each_ ok d b up top path es r))
        else (false, [(name, Dir (snd x))]) in
      let one := if ok p then (fst (each_ ok d b up top path es r), (name, c) :: snd (each_ ok d b up top path es r))
                 else (false, []) in
      match c with
      | Dir _ => if ok p then sub (link_any ok d b (es :: up) false p c) else (false, [])
      | Lnk t =>
          match (match b with O => FNone | S b' => follow b' up es t end) with
          | FDir es' up' b' =>
              match d with
              | O => (false, [])
              | S d' => if ok p then sub (link_any ok d' b' up' false p (Dir es')) else (false, [])
              end
          | FWork => (false, [])
          | _ => one
          end
      | _ => one
      end.
Proof. reflexivity. Qed.

Lemma link_eq : forall ok d b up top path es, link_any ok d b up top path (Dir es) = each_ ok d b up top path es es.
Proof.
  intros. destruct d; cbn [link_any];
    match goal with |- ?F es = each_ _ ?D _ _ _ _ _ _ => assert (H : forall l, F l = each_ ok D b up top path es l) end;
    try apply H; induction l as [| [name c] r IH]; try reflexivity; cbn -[follow content_ok WD link_any]; rewrite IH;
    destruct c; reflexivity.
Qed.

Lemma follow_leads : forall b up es n d u b', follow b up es n = FDir d u b' <->
  exists j, leads up es n j d u /\ j <= b /\ b' = b - j.
Proof.
  induction b as [| b IH]; intros up es n d u b'; cbn [follow];
    (destruct (String.eqb_spec n ".") as [-> | N1]; [| destruct (String.eqb_spec n "..") as [-> | N2];
      [| destruct (String.eqb_spec n WD) as [-> | N3]]]).
  1,5: (split; [intro H; injection H as <- <- <-; exists 0; split; [constructor | split; lia]
        | intros (j & L & Lj & E); inversion L; subst; try congruence; f_equal; lia]).
  1,4: (split; [destruct up; intro H; injection H as <- <- <-; exists 0; (split; [constructor | split; lia])
        | intros (j & L & Lj & E); inversion L; subst; try congruence; f_equal; lia]).
  1,3: (split; [discriminate | intros (j & L & _); inversion L; subst; try discriminate; unfold WD in *; congruence]).
  - destruct (assoc n es) as [[i | x | t |] |] eqn:E; split; intro H; try discriminate.
    all: try (destruct H as (j & L & Lj & Eb); inversion L; subst; try congruence; try lia; fail).
    + injection H as <- <- <-. exists 0. split; [apply ld_dir; auto | split; lia].
    + destruct H as (j & L & Lj & Eb). inversion L; subst; try congruence; try lia.
      rewrite E in *. match goal with X : Some _ = Some _ |- _ => injection X as -> end. reflexivity.
  - destruct (assoc n es) as [[i | x | t |] |] eqn:E; split; intro H; try discriminate.
    all: try (destruct H as (j & L & Lj & Eb); inversion L; subst; try congruence; try lia; fail).
    + injection H as <- <- <-. exists 0. split; [apply ld_dir; auto | split; lia].
    + destruct H as (j & L & Lj & Eb). inversion L; subst; try congruence; try lia.
      rewrite E in *. match goal with X : Some _ = Some _ |- _ => injection X as -> end. f_equal; lia.
    + apply IH in H as (j & L & Lj & ->). exists (S j). split; [eapply ld_link; eauto | split; lia].
    + destruct H as (j & L & Lj & Eb). inversion L; subst; try congruence.
      rewrite E in *. match goal with X : Some _ = Some _ |- _ => injection X as -> end.
      apply IH. eexists; split; [eassumption | split; lia].
Qed.

Definition entry (b : nat) (up : list dir) (es : dir) (name : string) (c : node) (p : list string) (k : kind) : Prop :=
  match c with
  | Reg i => p = [name] /\ k = KFile i
  | Lnk t => (p = [name] /\ k = KLink t /\ forall j d u, leads up es t j d u -> b <= j)
             \/ exists j d u, leads up es t j d u /\ j < b /\
                  ((p = [name] /\ k = KDir) \/ exists p', p = name :: p' /\ sees (b - S j) u d p' k)
  | Dir d => (p = [name] /\ k = KDir) \/ exists p', p = name :: p' /\ sees b (es :: up) d p' k
  | Oth => False
  end.

Lemma sees_entry : forall b up es p k, sees b up es p k <->
  exists n c, In (n, c) es /\ n <> WD /\ entry b up es n c p k.
Proof.
  intros. split.
  - intro H. destruct H; eexists; eexists; (split; [eassumption | split; [assumption |]]); cbn [entry];
      (split; reflexivity) || eauto 12.
  - intros (n & c & I & N & E). destruct c; cbn [entry] in E.
    + destruct E as [-> ->]. econstructor; eauto.
    + destruct E as [[-> ->] | (p' & -> & H)]; [eapply se_dir | eapply se_sub]; eauto.
    + destruct E as [(-> & -> & H) | (j & d & u & L & J & [[-> ->] | (p' & -> & H)])];
        [eapply se_link | eapply se_ldir | eapply se_lsub]; eauto.
    + destruct E.
Qed.

Lemma shows_cons : forall n c r p k, shows ((n, c) :: r) p k <-> shows [(n, c)] p k \/ shows r p k.
Proof.
  intros. split.
  - intro H. inversion H; subst; cbn [In] in *;
      match goal with X : _ = _ \/ In _ _ |- _ => destruct X as [E | X]; [injection E as <- -> |] end;
      ((left; econstructor; cbn; eauto; fail) || (right; econstructor; eauto)).
  - intros [H | H]; inversion H; subst; cbn [In] in *; econstructor; cbn [In]; intuition eauto.
Qed.
Lemma shows_nil : forall p k, ~ shows [] p k.
Proof. intros p k H. inversion H; subst; contradiction. Qed.
Lemma shows_one_dir : forall n d p k, shows [(n, Dir d)] p k <-> (p = [n] /\ k = KDir) \/ exists p', p = n :: p' /\ shows d p' k.
Proof.
  intros. split.
  - intro H. inversion H; subst; cbn [In] in *; match goal with X : _ \/ False |- _ => destruct X as [E | []] end;
      try discriminate; injection E as <- <-; [left; auto | right; eauto].
  - intros [[-> ->] | (p' & -> & H)]; [eapply sh_dir | eapply sh_sub]; cbn; eauto.
Qed.

Lemma link_any_sees : forall d ok n b up top path es, n = Dir es -> b < d ->
  forall wd, link_any ok d b up top path (Dir es) = (true, wd) ->
  forall p k, shows wd p k <-> sees b up es p k.
Proof.
  induction d as [| d IHd]; [intros; lia |].
  intros ok n. induction n as [| | | es0 IHn] using node_ind'; try discriminate.
  intros b up top path es E B wd R p k. injection E as ->. rename IHn into IHn'.
  rewrite link_eq in R. rewrite sees_entry.
  assert (G : forall l wd, incl l es -> each_ ok (S d) b up top path es l = (true, wd) ->
            (shows wd p k <-> exists n c, In (n, c) l /\ n <> WD /\ entry b up es n c p k)).
  2: { apply G; [apply incl_refl | assumption]. }
  clear R wd. induction l as [| [name c] r IH]; intros wd I R.
  { injection R as <-. split; [intro H; destruct (shows_nil _ _ H) | intros (? & ? & [] & _)]. }
  assert (Ir : incl r es) by (intros x Hx; apply I; right; assumption).
  assert (Ic : In (name, c) es) by (apply I; left; reflexivity).
  assert (S1 : forall P : string -> node -> Prop, (exists n x, In (n, x) ((name, c) :: r) /\ n <> WD /\ P n x) <->
               (name <> WD /\ P name c) \/ exists n x, In (n, x) r /\ n <> WD /\ P n x).
  { intro P. split.
    - intros (n & x & [J | J] & Nx & Hx); [injection J as <- <-; auto | right; eauto].
    - intros [[Nx Hx] | (n & x & J & Nx & Hx)]; [exists name, c | exists n, x]; cbn; auto. }
  rewrite (S1 (fun n x => entry b up es n x p k)). clear S1.
  rewrite each_cons in R. cbv zeta in R.
  destruct (String.eqb_spec name WD) as [-> | Nw].
  { rewrite (IH wd Ir R). split; [auto | intros [[X _] | X]; [congruence | assumption]]. }
  destruct (content_ok top name c) eqn:CO; cbn [negb] in R; [| discriminate].
  destruct (each_ ok (S d) b up top path es r) as [o rest] eqn:ER. cbn [fst snd] in R.
  assert (one : forall wd, (if ok (path ++ [name]) then (o, (name, c) :: rest) else (false, [])) = (true, wd) ->
            wd = (name, c) :: rest /\ o = true).
  { intros w Hw. destruct (ok (path ++ [name])); [injection Hw as -> <-; auto | discriminate]. }
  destruct c as [i | es1 | t |]; cbn [entry].
  - apply one in R as [-> ->]. rewrite shows_cons, (IH rest Ir eq_refl).
    assert (X : shows [(name, Reg i)] p k <-> p = [name] /\ k = KFile i).
    { split; [intro H; inversion H; subst; cbn [In] in *; match goal with X : _ \/ False |- _ => destruct X as [E | []] end;
        try discriminate; injection E as <- <-; auto | intros [-> ->]; constructor; cbn; auto]. }
    rewrite X. tauto.
  - destruct (ok (path ++ [name])); [| discriminate].
    cbv beta in R. match type of R with (if fst ?L then _ else _) = _ => destruct L as [o1 sub] eqn:E1 end. cbn [fst snd] in R.
    destruct o1; [| discriminate]. injection R as -> <-.
    rewrite shows_cons, (IH rest Ir eq_refl), shows_one_dir.
    rewrite Forall_forall in IHn'. specialize (IHn' _ Ic).
    assert (X : forall p', shows sub p' k <-> sees b (es :: up) es1 p' k).
    { intro p'. eapply IHn'; [reflexivity | assumption | eassumption]. }
    split.
    + intros [[H | (p' & -> & H)] | H]; [left; auto | left; split; [assumption | right; exists p'; rewrite <- X; auto] | right; assumption].
    + intros [[_ [H | (p' & -> & H)]] | H]; [auto | left; right; exists p'; rewrite X; auto | auto].
  - destruct (match b with O => FNone | S b' => follow b' up es t end) as [| i | es' up' b' | |] eqn:F.
    3: { destruct (ok (path ++ [name])); [| discriminate].
      destruct b as [| b0]; [discriminate |]. apply follow_leads in F as (j & L & J & ->).
      cbv beta in R. match type of R with (if fst ?L then _ else _) = _ => destruct L as [o1 sub] eqn:E1 end. cbn [fst snd] in R.
      destruct o1; [| discriminate]. injection R as -> <-.
      rewrite shows_cons, (IH rest Ir eq_refl), shows_one_dir.
      assert (X : forall p', shows sub p' k <-> sees (b0 - j) up' es' p' k).
      { intro p'. eapply (IHd ok (Dir es')); [reflexivity | lia | eassumption]. }
      assert (U : forall j' d' u', leads up es t j' d' u' -> j' = j /\ d' = es' /\ u' = up').
      { intros j' d' u' L'.
        assert (A1 : follow (j' + j) up es t = FDir d' u' (j' + j - j')) by (apply follow_leads; exists j'; split; [assumption | split; lia]).
        assert (A2 : follow (j' + j) up es t = FDir es' up' (j' + j - j)) by (apply follow_leads; exists j; split; [assumption | split; lia]).
        rewrite A1 in A2. injection A2 as -> -> ?. split; [lia | auto]. }
      split.
      - intros [[H | (p' & -> & H)] | H]; [left; split; [assumption |] .. | right; assumption]; right; exists j, es', up'.
        + split; [assumption | split; [lia | left; assumption]].
        + split; [assumption | split; [lia |]]. right. exists p'. split; [reflexivity |].
          replace (S b0 - S j) with (b0 - j) by lia. apply X. assumption.
      - intros [[_ [(-> & -> & H) | (j' & d' & u' & L' & J' & [H | (p' & -> & H)])]] | H].
        + exfalso. specialize (H _ _ _ L). lia.
        + left; left; assumption.
        + apply U in L' as (-> & -> & ->). left. right. exists p'. split; [reflexivity |]. apply X.
          replace (b0 - j) with (S b0 - S j) by lia. assumption.
        + right; assumption. }
    4: discriminate.
    all: apply one in R as [-> ->]; rewrite shows_cons, (IH rest Ir eq_refl).
    all: assert (NL : forall j d' u, leads up es t j d' u -> b <= j)
      by (intros j d' u L; destruct b as [| b0]; [lia |];
          destruct (Nat.le_gt_cases (S b0) j) as [? | LT]; [assumption |]; exfalso;
          assert (A : follow b0 up es t = FDir d' u (b0 - j)) by (apply follow_leads; exists j; split; [assumption | split; lia]);
          congruence).
    all: assert (X : shows [(name, Lnk t)] p k <-> p = [name] /\ k = KLink t)
      by (split; [intro H; inversion H; subst; cbn [In] in *; match goal with X : _ \/ False |- _ => destruct X as [E | []] end;
          try discriminate; injection E as <- <-; auto | intros [-> ->]; constructor; cbn; auto]).
    all: rewrite X; (split; [intros [[-> ->] | H]; [left; split; [assumption | left; auto] | right; assumption] |]).
    all: intros [[_ [(-> & -> & _) | (j & d' & u & L & J & _)]] | H]; [left; auto | apply NL in L; lia | right; assumption].
  - cbn in CO. discriminate.
Qed.

(** ** what linking refuses *)

Lemma content_ok_allowed : forall top n c, content_ok top n c = true -> allowed top n c.
Proof.
  intros top n c H. destruct c; cbn [content_ok allowed] in *; auto.
  - intros ->. rewrite andb_true_l in H. destruct (has_prefix "." n); [discriminate | reflexivity].
  - apply andb_prop in H as [_ H]. destruct (has_char "/" t); [discriminate | reflexivity].
  - discriminate.
Qed.

Lemma reached_inv : forall b up es p x, reached b up es p x ->
  (p = [] /\ x = es)
  \/ exists n c p', p = n :: p' /\ In (n, c) es /\ n <> WD /\
       ((exists d, c = Dir d /\ reached b (es :: up) d p' x)
        \/ exists t j d u, c = Lnk t /\ leads up es t j d u /\ j < b /\ reached (b - S j) u d p' x).
Proof.
  intros b up es p x H. destruct H; [left; auto | right | right].
  - exists n, (Dir d), p. repeat (split; [auto |]). left. eauto.
  - exists n, (Lnk t), p. repeat (split; [auto |]). right. exists t, j, d, u. auto.
Qed.

Lemma link_any_allowed : forall d ok n b up top path es, n = Dir es -> b < d ->
  forall wd, link_any ok d b up top path (Dir es) = (true, wd) ->
  forall p x, reached b up es p x -> forall m c, In (m, c) x -> m <> WD ->
  allowed (match p with [] => top | _ => false end) m c.
Proof.
  induction d as [| d IHd]; [intros; lia |].
  intros ok n. induction n as [| | | es0 IHn] using node_ind'; try discriminate.
  intros b up top path es E B wd R p x Re m c I Nm. injection E as ->. rename IHn into IHn'.
  rewrite link_eq in R.
  assert (G : forall l wd, incl l es -> each_ ok (S d) b up top path es l = (true, wd) ->
     (forall n c, In (n, c) l -> n <> WD -> content_ok top n c = true /\
        (forall dd, c = Dir dd -> exists w, link_any ok (S d) b (es :: up) false (path ++ [n]) (Dir dd) = (true, w))
        /\ forall t j dd u, c = Lnk t -> leads up es t j dd u -> j < b ->
             exists w, link_any ok d (b - S j) u false (path ++ [n]) (Dir dd) = (true, w))).
  { clear - B. induction l as [| [name c] r IH]; intros wd I R n c0 In0 N0; [destruct In0 |].
    assert (Ir : incl r es) by (intros y Hy; apply I; right; assumption).
    rewrite each_cons in R. cbv zeta in R.
    destruct (String.eqb_spec name WD) as [-> | Nw].
    { destruct In0 as [E | In0]; [injection E as <- <-; congruence |]. eapply IH; eassumption. }
    destruct (content_ok top name c) eqn:CO; cbn [negb] in R; [| discriminate].
    destruct (each_ ok (S d) b up top path es r) as [o rest] eqn:ER. cbn [fst snd] in R.
    assert (O : o = true /\ (forall dd, c = Dir dd -> exists w, link_any ok (S d) b (es :: up) false (path ++ [name]) (Dir dd) = (true, w))
        /\ forall t j dd u, c = Lnk t -> leads up es t j dd u -> j < b ->
             exists w, link_any ok d (b - S j) u false (path ++ [name]) (Dir dd) = (true, w)).
    { destruct c as [i | es1 | t |].
      - destruct (ok (path ++ [name])); [| discriminate]. injection R as -> _. repeat split; intros; discriminate.
      - destruct (ok (path ++ [name])); [| discriminate]. cbv beta in R.
        match type of R with (if fst ?L then _ else _) = _ => destruct L as [o1 sub] eqn:E1 end. cbn [fst snd] in R.
        destruct o1; [| discriminate]. injection R as -> _. split; [reflexivity |]. split; [| intros; discriminate].
        intros dd Ed. injection Ed as <-. exists sub. assumption.
      - destruct (match b with O => FNone | S b' => follow b' up es t end) as [| i | es' up' b' | |] eqn:F.
        3: { destruct (ok (path ++ [name])); [| discriminate]. cbv beta in R.
          match type of R with (if fst ?L then _ else _) = _ => destruct L as [o1 sub] eqn:E1 end. cbn [fst snd] in R.
          destruct o1; [| discriminate]. injection R as -> _. split; [reflexivity |]. split; [intros; discriminate |].
          intros t' j dd u Et L J. injection Et as <-. destruct b as [| b0]; [discriminate |].
          assert (A : follow b0 up es t = FDir dd u (b0 - j)) by (apply follow_leads; exists j; split; [assumption | split; lia]).
          rewrite A in F. injection F as -> -> <-. exists sub. exact E1. }
        4: discriminate.
        all: destruct (ok (path ++ [name])); [| discriminate]; injection R as -> _;
          split; [reflexivity |]; split; [intros; discriminate |];
          intros t' j dd u Et L J; injection Et as <-; destruct b as [| b0]; [lia |];
          assert (A : follow b0 up es t = FDir dd u (b0 - j)) by (apply follow_leads; exists j; split; [assumption | split; lia]);
          rewrite A in F; discriminate.
      - cbn in CO. discriminate. }
    destruct O as (-> & O1 & O2).
    destruct In0 as [E | In0]; [injection E as <- <-; auto |]. eapply IH; try eassumption. reflexivity. }
  specialize (G es wd (incl_refl _) R).
  apply reached_inv in Re as [[-> ->] | (n & c0 & p' & -> & In0 & N0 & Hc)].
  - apply content_ok_allowed. eapply G; eassumption.
  - assert (Ht : forall top', (match p' with [] => false | _ => false end) = top' -> allowed top' m c -> allowed false m c)
      by (intros ? <- ?; destruct p'; assumption).
    destruct (G _ _ In0 N0) as (_ & G1 & G2).
    destruct Hc as [(dd & -> & Re) | (t & j & dd & u & -> & L & J & Re)].
    + destruct (G1 _ eq_refl) as [w Hw]. rewrite Forall_forall in IHn'. specialize (IHn' _ In0).
      specialize (IHn' b (es :: up) false (path ++ [n]) dd eq_refl B w Hw p' x Re m c I Nm). destruct p'; assumption.
    + destruct (G2 _ _ _ _ eq_refl L J) as [w Hw].
      specialize (IHd ok (Dir dd) (b - S j) u false (path ++ [n]) dd eq_refl ltac:(lia) w Hw p' x Re m c I Nm).
      destruct p'; assumption.
Qed.

(** ** files at the top keep their inode *)

Lemma each_assoc : forall ok d b up top path es l wd, each_ ok d b up top path es l = (true, wd) ->
  forall n, n <> WD -> match assoc n l with
                       | Some (Reg i) => assoc n wd = Some (Reg i)
                       | None => assoc n wd = None
                       | _ => True
                       end.
Proof.
  intros ok d b up top path es. induction l as [| [name c] r IH]; intros wd R n N.
  - injection R as <-. reflexivity.
  - rewrite each_cons in R. cbv zeta in R. cbn [assoc].
    destruct (String.eqb_spec name WD) as [-> | Nw].
    { destruct (String.eqb_spec WD n) as [E | _]; [congruence |]. apply IH; assumption. }
    destruct (content_ok top name c); cbn [negb] in R; [| discriminate].
    destruct (each_ ok d b up top path es r) as [o rest]. cbn [fst snd] in R.
    assert (X : exists c', o = true /\ wd = (name, c') :: rest /\ match c with Reg i => c' = Reg i | _ => True end).
    { destruct c as [i | es1 | t |].
      - destruct (ok (path ++ [name])); [| discriminate]. injection R as -> <-. eauto.
      - destruct (ok (path ++ [name])); [| discriminate]. cbv beta in R.
        match type of R with (if fst ?L then _ else _) = _ => destruct L as [o1 sub] end. cbn [fst snd] in R.
        destruct o1; [| discriminate]. injection R as -> <-. eauto.
      - destruct (match b with O => FNone | S b' => follow b' up es t end); try discriminate;
          try (destruct (ok (path ++ [name])); [| discriminate]; injection R as -> <-; eauto; fail).
        destruct d; [discriminate |]. destruct (ok (path ++ [name])); [| discriminate]. cbv beta in R.
        match type of R with (if fst ?L then _ else _) = _ => destruct L as [o1 sub] end. cbn [fst snd] in R.
        destruct o1; [| discriminate]. injection R as -> <-. eauto.
      - destruct (ok (path ++ [name])); [| discriminate]. injection R as -> <-. eauto. }
    destruct X as (c' & -> & -> & Hc). cbn [assoc].
    destruct (String.eqb_spec name n) as [-> | Nn].
    + destruct c; auto. rewrite Hc. reflexivity.
    + apply IH; auto.
Qed.
