(** Parent links: resolve_slot_parents and fix_grandparent_links *)
From Coq Require Import Permutation.
From Verif Require Import Base BaseLemmas KeyFile Config ConfigSpec.

(** ** links as functions *)
Section Links.
  Variable par0 : string -> option string.
  Definition link (a b : string) : Prop := par0 a = Some b.
  Notation anc := (clos_trans string link).
  Notation rch := (clos_refl_trans string link).

  Fixpoint nlinks (n : nat) (a b : string) : Prop :=
    match n with
    | O => a = b
    | S n => exists c, link a c /\ nlinks n c b
    end.

  Lemma nlinks_app n : forall m a b c, nlinks n a b -> nlinks m b c -> nlinks (n + m) a c.
  Proof.
    induction n as [|n IH]; intros m a b c H1 H2; cbn in *; [now subst|]. destruct H1 as (d & D1 & D2). exists d. split; [auto|]. eapply IH; eauto.
  Qed.
  Lemma nlinks_anc n : forall a b, nlinks (S n) a b -> anc a b.
  Proof.
    induction n as [|n IH]; intros a b (c & L & H).
    - cbn in H. subst. now constructor.
    - eapply t_trans; [now constructor; apply L|]. apply IH. exact H.
  Qed.
  Lemma anc_nlinks a b : anc a b -> exists n, nlinks (S n) a b.
  Proof.
    induction 1 as [a b L|a b c _ [n H1] _ [m H2]].
    - exists 0. exists b. split; [exact L|reflexivity].
    - exists (n + S m). change (S (n + S m)) with (S n + S m). eapply nlinks_app; eauto.
  Qed.

  (** on a cycle there is no way to a root *)
  Lemma cycle_no_root a r : anc a a -> anc a r -> par0 r <> None.
  Proof.
    intros C H. assert (G : forall b, rch a b -> anc b b).
    { intros b Hb. apply clos_rt_rtn1 in Hb. induction Hb as [|b c L _ IH]; [exact C|].
      apply clos_trans_t1n in IH. inversion IH as [? L'|? x L' R]; subst.
      - unfold link in L, L'. rewrite L in L'. injection L' as ->. now constructor.
      - unfold link in L, L'. rewrite L in L'. injection L' as ->.
        apply clos_t1n_trans in R. eapply t_trans; [exact R|now constructor]. }
    assert (rch a r). { clear -H. induction H; [now constructor|eapply rt_trans; eauto]. }
    specialize (G r H0). apply clos_trans_t1n in G. inversion G as [? L|? x L _]; subst; unfold link in L; congruence.
  Qed.

  (** invariant of the loop: links only become shorter *)
  Definition shortened (par : string -> option string) : Prop :=
    (forall n, par n = None <-> par0 n = None) /\ (forall n q, par n = Some q -> anc n q).

  Lemma walk_sound par : shortened par -> forall fuel p r, walk par fuel p = Some r -> par0 r = None /\ (p = r \/ anc p r).
  Proof.
    intros (S1 & S2). induction fuel as [|f IH]; intros p r H; cbn [walk] in H.
    - destruct (par p) as [q|] eqn:E; [discriminate|]. injection H as <-. split; [now apply S1|now left].
    - destruct (par p) as [q|] eqn:E.
      + destruct (IH q r H) as (A & B). split; [exact A|]. right. specialize (S2 p q E).
        destruct B as [->|B]; [exact S2|eapply t_trans; eauto].
      + injection H as <-. split; [now apply S1|now left].
  Qed.

  Lemma fix_sound order : forall par par', shortened par -> fix_links order par = Ok par' ->
    shortened par' /\
    (forall n q, par' n = Some q -> par n = Some q \/ par0 q = None) /\
    (forall s q, In s order -> par' (c_name s) = Some q -> par0 q = None).
  Proof.
    induction order as [|s r IH]; intros par par' SH H; cbn [fix_links] in H.
    - apply Ok_inj in H. subst par'. split; [exact SH|]. split; [tauto|]. intros s q [].
    - destruct (par (c_name s)) as [p|] eqn:EP.
      + destruct (walk par 100 p) as [root|] eqn:W; [|discriminate].
        destruct (walk_sound par SH _ _ _ W) as (R0 & RA).
        assert (AN : anc (c_name s) root).
        { destruct SH as [_ S2]. specialize (S2 _ _ EP). destruct RA as [->|RA]; [exact S2|eapply t_trans; eauto]. }
        assert (SH' : shortened (upd par (c_name s) (Some root))).
        { destruct SH as [S1 S2]. split.
          - intros n. destruct (string_dec (c_name s) n) as [<-|N].
            + rewrite upd_eq. split; [discriminate|]. intros K. apply S1 in K. congruence.
            + rewrite upd_neq by assumption. apply S1.
          - intros n q. destruct (string_dec (c_name s) n) as [<-|N].
            + rewrite upd_eq. intros [= <-]. exact AN.
            + rewrite upd_neq by assumption. apply S2. }
        destruct (IH _ _ SH' H) as (A & B & C). split; [exact A|]. split.
        * intros n q K. destruct (B n q K) as [K1|K1]; [|tauto].
          destruct (string_dec (c_name s) n) as [<-|N]; [rewrite upd_eq in K1; injection K1 as <-; tauto|rewrite upd_neq in K1 by assumption; tauto].
        * intros s' q [<-|Hs] K; [|eapply C; eauto]. destruct (B _ _ K) as [K1|K1]; [|exact K1]. rewrite upd_eq in K1. now injection K1 as <-.
      + destruct (IH _ _ SH H) as (A & B & C). split; [exact A|]. split; [exact B|].
        intros s' q [<-|Hs] K; [|eapply C; eauto]. destruct (B _ _ K) as [K1|K1]; [congruence|exact K1].
  Qed.

  Lemma shortened_refl : shortened par0.
  Proof. split; [tauto|]. intros n q H. now constructor. Qed.

  (** with a bound on the chains the loop succeeds *)
  Lemma nlinks_anc_le n : forall a q, anc a q -> (forall m b, nlinks m a b -> m <= S n) -> forall m b, nlinks m q b -> m <= n.
  Proof.
    intros a q H B m b K. apply anc_nlinks in H as (j & J). pose proof (nlinks_app _ _ _ _ _ J K) as L. apply B in L. lia.
  Qed.
  Lemma walk_ok par : shortened par -> forall fuel p, (forall m b, nlinks m p b -> m <= fuel) -> exists r, walk par fuel p = Some r.
  Proof.
    intros SH. induction fuel as [|f IH]; intros p B; cbn [walk]; destruct (par p) as [q|] eqn:E; try (eexists; reflexivity).
    - exfalso. destruct SH as [_ S2]. apply S2 in E. apply anc_nlinks in E as (j & J). apply B in J. lia.
    - apply IH. destruct SH as [_ S2]. apply S2 in E. apply (nlinks_anc_le f p q E B).
  Qed.
  Lemma fix_ok order : (forall n m b, nlinks m n b -> m <= 101) ->
    forall par, shortened par -> exists par', fix_links order par = Ok par'.
  Proof.
    intros B. induction order as [|s r IH]; intros par SH; cbn [fix_links]; [eexists; reflexivity|].
    destruct (par (c_name s)) as [p|] eqn:EP; [|apply IH; exact SH].
    assert (AN : anc (c_name s) p) by (now apply SH).
    destruct (walk_ok par SH 100 p) as (root & W). { apply (nlinks_anc_le 100 (c_name s) p AN). apply B. }
    rewrite W. apply IH. destruct (walk_sound par SH _ _ _ W) as (R0 & RA).
    assert (AR : anc (c_name s) root) by (destruct RA as [->|RA]; [exact AN|eapply t_trans; eauto]).
    destruct SH as [S1 S2]. split.
    - intros n. destruct (string_dec (c_name s) n) as [<-|N].
      + rewrite upd_eq. split; [discriminate|]. intros K. apply S1 in K. congruence.
      + rewrite upd_neq by assumption. apply S1.
    - intros n q. destruct (string_dec (c_name s) n) as [<-|N].
      + rewrite upd_eq. intros [= <-]. exact AR.
      + rewrite upd_neq by assumption. apply S2.
  Qed.

  (** without cycles a chain visits every slot at most once *)
  Lemma nlinks_path n : forall a b, nlinks n a b -> (forall x, ~ anc x x) ->
    exists l, List.length l = n /\ NoDup (a :: l) /\ (forall x, In x l -> anc a x) /\ (forall x, In x (a :: l) -> x = b \/ par0 x <> None).
  Proof.
    induction n as [|n IH]; intros a b H AC.
    - cbn in H. subst. exists []. split; [reflexivity|]. split; [repeat constructor; auto|]. split; [intros x []|].
      intros x [->|[]]. now left.
    - destruct H as (c & L & H). destruct (IH c b H AC) as (l & L1 & L2 & L3 & L4). exists (c :: l).
      split; [cbn; lia|]. split; [|split].
      + constructor; [|exact L2]. intros [->|K].
        * apply (AC a). now constructor.
        * apply (AC a). eapply t_trans; [constructor; exact L|]. now apply L3.
      + intros x [->|K]; [now constructor|]. eapply t_trans; [constructor; exact L|]. now apply L3.
      + intros x [->|K]; [right; unfold link in L; congruence|]. now apply L4.
  Qed.
End Links.

(** links only depend on the values of the parent function *)
Lemma walk_ext p p' : (forall n, p n = p' n) -> forall f x, walk p f x = walk p' f x.
Proof. intros H. induction f as [|f IH]; intros x; cbn; rewrite H; destruct (p' x); auto. Qed.
Lemma anc_ext p p' : (forall n, p n = p' n) -> forall a b, clos_trans string (link p) a b -> clos_trans string (link p') a b.
Proof. intros H a b A. induction A as [a b L|]; [constructor; unfold link in *; now rewrite <- H|eapply t_trans; eauto]. Qed.

(** ** the first loop *)
Lemma find_slot_some slots n s : find_slot slots n = Some s -> In s slots /\ c_name s = n.
Proof. intros H. apply find_some in H as [H1 H2]. split; [exact H1|]. now apply String.eqb_eq. Qed.
Lemma find_slot_in slots s : NoDup (map c_name slots) -> In s slots -> find_slot slots (c_name s) = Some s.
Proof.
  induction slots as [|t r IH]; intros ND H; [destruct H|]. cbn [map] in ND. inversion ND as [|? ? N1 N2]; subst. cbn [find_slot find].
  destruct (String.eqb_spec (c_name t) (c_name s)) as [E|E].
  - destruct H as [->|H]; [reflexivity|]. exfalso. apply N1. rewrite E. now apply in_map.
  - destruct H as [->|H]; [now destruct E|]. now apply IH.
Qed.

Lemma set_parents_ok slots order : forall par par', NoDup (map c_name order) -> set_parents slots order par = Ok par' ->
  (forall s, In s order -> match c_parent_name s with
                           | Some q => par' (c_name s) = Some q /\ (exists p, In p slots /\ c_name p = q) /\ c_bootname s = None
                           | None => par' (c_name s) = par (c_name s)
                           end) /\
  (forall n, ~ In n (map c_name order) -> par' n = par n).
Proof.
  induction order as [|s r IH]; intros par par' ND H; cbn [set_parents] in H.
  - apply Ok_inj in H. subst. split; [intros s []|auto].
  - cbn [map] in ND. inversion ND as [|? ? N1 N2]; subst.
    destruct (c_parent_name s) as [pn|] eqn:EP.
    + destruct (find_slot slots pn) as [p|] eqn:EF; [|discriminate]. destruct (c_bootname s) eqn:EB; [discriminate|].
      destruct (find_slot_some _ _ _ EF) as (F1 & F2). destruct (IH _ _ N2 H) as (A & B). split.
      * intros t [<-|Ht].
        -- rewrite EP. rewrite (B _ N1), upd_eq, F2. split; [reflexivity|]. split; [exists p; auto|exact EB].
        -- specialize (A t Ht). destruct (c_parent_name t); [exact A|]. rewrite A. apply upd_neq. intros E. apply N1. rewrite E. now apply in_map.
      * intros n Hn. cbn [map] in Hn. rewrite (B n) by (intros K; apply Hn; now right). apply upd_neq. intros K. apply Hn. now left.
    + destruct (IH _ _ N2 H) as (A & B). split.
      * intros t [<-|Ht]; [rewrite EP; now apply B|exact (A t Ht)].
      * intros n Hn. apply B. intros K. apply Hn. now right.
Qed.
Lemma set_parents_total slots order : forall par,
  (forall s q, In s order -> c_parent_name s = Some q -> (exists p, In p slots /\ c_name p = q) /\ c_bootname s = None) ->
  exists par', set_parents slots order par = Ok par'.
Proof.
  induction order as [|s r IH]; intros par H; cbn [set_parents]; [eexists; reflexivity|].
  destruct (c_parent_name s) as [q|] eqn:EP; [|apply IH; intros; eapply H; eauto; now right].
  destruct (H s q (or_introl eq_refl) EP) as ((p & P1 & P2) & B). rewrite B.
  destruct (find_slot slots q) as [p'|] eqn:EF.
  - apply IH. intros; eapply H; eauto; now right.
  - exfalso. unfold find_slot in EF. pose proof (find_none _ _ EF p P1) as K. cbn in K. rewrite P2, String.eqb_refl in K. discriminate.
Qed.

(** parent links as configured *)
Definition conf_par (slots : list cslot) (n : string) : option string :=
  match find_slot slots n with Some s => c_parent_name s | None => None end.

Lemma set_parents_conf slots order par : NoDup (map c_name slots) -> Permutation order slots ->
  set_parents slots order (fun _ => None) = Ok par -> forall n, par n = conf_par slots n.
Proof.
  intros ND PM H. assert (ND' : NoDup (map c_name order)). { eapply Permutation_NoDup; [|exact ND]. apply Permutation_map. now symmetry. }
  destruct (set_parents_ok _ _ _ _ ND' H) as (A & B). intros n. unfold conf_par. destruct (find_slot slots n) as [s|] eqn:E.
  - destruct (find_slot_some _ _ _ E) as (I1 & <-). assert (I2 : In s order) by (eapply Permutation_in; [symmetry; exact PM|exact I1]).
    specialize (A s I2). destruct (c_parent_name s); [tauto|exact A].
  - apply B. intros K. apply in_map_iff in K as (s & <- & K). apply (Permutation_in _ PM) in K.
    rewrite (find_slot_in _ _ ND K) in E. discriminate.
Qed.

Lemma fix_links_ext order : forall p p', (forall n, p n = p' n) ->
  match fix_links order p, fix_links order p' with Ok a, Ok b => forall n, a n = b n | Err, Err => True | Abort, Abort => True | _, _ => False end.
Proof.
  induction order as [|s r IH]; intros p p' H; cbn [fix_links]; [exact H|]. rewrite H. destruct (p' (c_name s)) as [q|]; [|now apply IH].
  rewrite (walk_ext p p' H). destruct (walk p' 100 q); [|exact Logic.I]. apply IH. intros n. unfold upd. destruct (String.eqb (c_name s) n); auto.
Qed.

(** what successful resolution means *)
Lemma resolve_sound slots o1 o2 par : NoDup (map c_name slots) -> Permutation o1 slots -> Permutation o2 slots ->
  resolve_parents slots o1 o2 = Ok par ->
  (forall s, In s slots -> c_parent_name s = None -> par (c_name s) = None) /\
  (forall s q, In s slots -> c_parent_name s = Some q -> c_bootname s = None /\
     exists root, par (c_name s) = Some root /\ In root (map c_name slots) /\ conf_par slots root = None /\ par root = None /\
                  clos_trans string (link (conf_par slots)) (c_name s) root).
Proof.
  intros ND P1 P2 H. unfold resolve_parents in H. destruct (set_parents slots o1 (fun _ => None)) as [p| |] eqn:E; try discriminate. cbn [bind] in H.
  pose proof (set_parents_conf _ _ _ ND P1 E) as PC.
  assert (ND' : NoDup (map c_name o1)). { eapply Permutation_NoDup; [|exact ND]. apply Permutation_map. now symmetry. }
  destruct (set_parents_ok _ _ _ _ ND' E) as (SA & SB).
  destruct (fix_sound p o2 p par (shortened_refl p) H) as ((S1 & S2) & _ & S3).
  assert (CONF : forall s, In s slots -> conf_par slots (c_name s) = c_parent_name s).
  { intros s Hs. unfold conf_par. now rewrite find_slot_in. }
  split.
  - intros s Hs HN. apply S1. rewrite PC, CONF by assumption. exact HN.
  - intros s q Hs HN. assert (I1 : In s o1) by (eapply Permutation_in; [symmetry; exact P1|exact Hs]).
    assert (I2 : In s o2) by (eapply Permutation_in; [symmetry; exact P2|exact Hs]).
    specialize (SA s I1). rewrite HN in SA. destruct SA as (SA1 & _ & SA3). split; [exact SA3|].
    destruct (par (c_name s)) as [root|] eqn:R; [|apply S1 in R; congruence]. exists root. split; [reflexivity|].
    pose proof (S3 s root I2 R) as R0. pose proof (S2 _ _ R) as AN.
    assert (IN : In root (map c_name slots)).
    { apply clos_trans_tn1 in AN. 
      assert (LK : exists a, link p a root) by (inversion AN; eauto). destruct LK as (a & LK). unfold link in LK.
      rewrite PC in LK. unfold conf_par in LK. destruct (find_slot slots a) as [t|] eqn:FT; [|discriminate].
      destruct (find_slot_some _ _ _ FT) as (T1 & T2). assert (T3 : In t o1) by (eapply Permutation_in; [symmetry; exact P1|exact T1]).
      destruct (set_parents_ok _ _ _ _ ND' E) as (SA' & _). specialize (SA' t T3). rewrite LK in SA'. destruct SA' as (_ & (u & U1 & <-) & _). now apply in_map. }
    split; [exact IN|]. split; [now rewrite <- PC|]. split; [now apply S1|]. eapply anc_ext; [exact PC|exact AN].
Qed.

(** when it succeeds *)
Lemma resolve_complete slots o1 o2 : NoDup (map c_name slots) -> Permutation o1 slots ->
  (forall s q, In s slots -> c_parent_name s = Some q -> In q (map c_name slots) /\ c_bootname s = None) ->
  (forall n m b, nlinks (conf_par slots) m n b -> m <= 101) ->
  exists par, resolve_parents slots o1 o2 = Ok par.
Proof.
  intros ND P1 H B. unfold resolve_parents.
  destruct (set_parents_total slots o1 (fun _ => None)) as (p & E).
  { intros s q Hs HN. destruct (H s q (Permutation_in _ P1 Hs) HN) as (A & C). apply in_map_iff in A as (u & <- & U). split; [exists u; auto|exact C]. }
  rewrite E. cbn [bind]. pose proof (set_parents_conf _ _ _ ND P1 E) as PC.
  assert (B' : forall n m b, nlinks p m n b -> m <= 101).
  { intros n m. revert n. assert (G : forall m n b, nlinks p m n b -> nlinks (conf_par slots) m n b).
    { induction m0 as [|k IH]; intros n b K; [exact K|]. destruct K as (c & L & K). exists c. split; [unfold link in *; now rewrite <- PC|]. now apply IH. }
    intros n b K. eapply B. apply G. exact K. }
  apply (fix_ok p o2 B' p (shortened_refl p)).
Qed.

Lemma acyclic_bound slots : NoDup (map c_name slots) -> List.length slots <= 102 ->
  (forall s q, In s slots -> c_parent_name s = Some q -> In q (map c_name slots)) ->
  (forall x, ~ clos_trans string (link (conf_par slots)) x x) ->
  forall n m b, nlinks (conf_par slots) m n b -> m <= 101.
Proof.
  intros ND LEN EX AC n m b H. destruct m as [|m]; [lia|].
  destruct (nlinks_path _ _ _ _ H AC) as (l & L1 & L2 & L3 & L4).
  assert (NB : In b (map c_name slots)).
  { clear L1 L2 L3 L4. revert n H. induction m as [|m IH]; intros n (c & L & K).
    - cbn in K. subst c. unfold link, conf_par in L. destruct (find_slot slots n) as [s|] eqn:F; [|discriminate].
      apply find_slot_some in F as (F1 & _). eapply EX; eauto.
    - eapply IH. exact K. }
  assert (INC : incl (n :: l) (map c_name slots)).
  { intros x Hx. destruct (L4 x Hx) as [->|K]; [exact NB|]. unfold conf_par in K. destruct (find_slot slots x) as [s|] eqn:F; [|congruence].
    apply find_slot_some in F as (F1 & <-). now apply in_map. }
  pose proof (NoDup_incl_length L2 INC) as LE. cbn [List.length] in LE. rewrite map_length in LE. lia.
Qed.

(** a cycle is always rejected *)
Lemma resolve_cycle slots o1 o2 s q : NoDup (map c_name slots) -> Permutation o1 slots -> Permutation o2 slots ->
  In s slots -> c_parent_name s = Some q -> clos_trans string (link (conf_par slots)) (c_name s) (c_name s) ->
  resolve_parents slots o1 o2 = Err.
Proof.
  intros ND P1 P2 Hs HQ C. destruct (resolve_parents slots o1 o2) as [par| |] eqn:E; [|reflexivity|].
  - exfalso. destruct (resolve_sound _ _ _ _ ND P1 P2 E) as (_ & A). destruct (A s q Hs HQ) as (_ & root & _ & _ & R0 & _ & AN).
    exact (cycle_no_root _ _ _ C AN R0).
  - exfalso. unfold resolve_parents in E. destruct (set_parents slots o1 (fun _ => None)) as [p| |] eqn:E1; try discriminate.
    + cbn [bind] in E. clear -E. revert p E. induction o2 as [|t r IH]; intros p E; cbn [fix_links] in E; [discriminate|].
      destruct (p (c_name t)); [destruct (walk p 100 s); [eapply IH; exact E|discriminate]|eapply IH; exact E].
    + clear -E1. revert E1. generalize (fun _ : string => @None string). induction o1 as [|t r IH]; intros p E1; cbn [set_parents] in E1; [discriminate|].
      destruct (c_parent_name t); [|eapply IH; exact E1]. destruct (find_slot slots s); [|discriminate]. destruct (c_bootname t); [discriminate|]. eapply IH; exact E1.
Qed.

(** ** bootnames and classes *)
Lemma check_bootnames_ok order : forall seen, check_bootnames order seen = true <->
  NoDup (flat_map (fun s => match c_bootname s with Some b => [b] | None => [] end) order) /\
  (forall s b, In s order -> c_bootname s = Some b -> ~ In b seen).
Proof.
  induction order as [|s r IH]; intros seen; cbn [check_bootnames flat_map].
  - split; [intros _; split; [constructor|intros s b []]|reflexivity].
  - destruct (c_bootname s) as [b|] eqn:B.
    + unfold mem. destruct (existsb (String.eqb b) seen) eqn:E.
      * split; [discriminate|]. intros (_ & K). exfalso. apply existsb_exists in E as (x & X1 & X2). apply String.eqb_eq in X2. subst x.
        exact (K s b (or_introl eq_refl) B X1).
      * rewrite IH. cbn [app]. assert (NS : ~ In b seen).
        { intros K. assert (existsb (String.eqb b) seen = true) by (apply existsb_exists; exists b; split; [exact K|apply String.eqb_refl]). congruence. }
        split.
        -- intros (A & C). split.
           ++ constructor; [|exact A]. intros K. apply in_flat_map in K as (t & T1 & T2). destruct (c_bootname t) as [b'|] eqn:BT; [|destruct T2].
              destruct T2 as [->|[]]. apply (C t b T1 BT). now left.
           ++ intros t b' [<-|Ht] HB; [rewrite B in HB; injection HB as <-; exact NS|]. intros K. apply (C t b' Ht HB). now right.
        -- intros (A & C). inversion A as [|? ? A1 A2]; subst. split; [exact A2|]. intros t b' Ht HB [<-|K].
           ++ apply A1. apply in_flat_map. exists t. split; [exact Ht|]. rewrite HB. now left.
           ++ apply (C t b' (or_intror Ht) HB K).
    + rewrite IH. cbn [app]. split; intros (A & C); (split; [exact A|]).
      * intros t b [<-|Ht]; [congruence|]. now apply C.
      * intros t b Ht. apply C. now right.
Qed.

Lemma nodup_bootnames slots : NoDup (map c_name slots) ->
  NoDup (flat_map (fun s => match c_bootname s with Some b => [b] | None => [] end) slots) <->
  (forall s t b, In s slots -> In t slots -> c_bootname s = Some b -> c_bootname t = Some b -> c_name s = c_name t).
Proof.
  induction slots as [|s r IH]; intros ND; cbn [flat_map map].
  - split; [intros _ s t b []|intros _; constructor].
  - cbn [map] in ND. inversion ND as [|? ? N1 N2]; subst. specialize (IH N2).
    assert (INB : forall b, In b (flat_map (fun s => match c_bootname s with Some b => [b] | None => [] end) r) <-> exists t, In t r /\ c_bootname t = Some b).
    { intros b. rewrite in_flat_map. split.
      - intros (t & T1 & T2). destruct (c_bootname t) as [b'|] eqn:B; [|destruct T2]. destruct T2 as [->|[]]. exists t. auto.
      - intros (t & T1 & T2). exists t. split; [exact T1|]. rewrite T2. now left. }
    destruct (c_bootname s) as [b|] eqn:B; cbn [app].
    + split.
      * intros K. inversion K as [|? ? K1 K2]; subst. pose proof (proj1 IH K2) as K3. intros x y c [<-|X] [<-|Y] CX CY; auto.
        -- exfalso. apply K1, INB. exists y. split; [exact Y|congruence].
        -- exfalso. apply K1, INB. exists x. split; [exact X|congruence].
        -- eapply K3; eauto.
      * intros K. constructor.
        -- intros C. apply INB in C as (t & T1 & T2). apply N1. rewrite (K s t b (or_introl eq_refl) (or_intror T1) B T2). now apply in_map.
        -- apply (proj2 IH). intros x y c X Y. apply K; now right.
    + rewrite IH. split.
      * intros K x y c [<-|X] [<-|Y] CX CY; try congruence. eapply K; eauto.
      * intros K x y c X Y. apply K; now right.
Qed.

Lemma check_bootnames_perm slots order : NoDup (map c_name slots) -> Permutation order slots ->
  check_bootnames order [] = true <->
  (forall s t b, In s slots -> In t slots -> c_bootname s = Some b -> c_bootname t = Some b -> c_name s = c_name t).
Proof.
  intros ND PM. rewrite check_bootnames_ok.
  assert (ND' : NoDup (map c_name order)). { eapply Permutation_NoDup; [|exact ND]. apply Permutation_map. now symmetry. }
  rewrite (nodup_bootnames order ND'). split.
  - intros (A & _) s t b Hs Ht. apply A; (eapply Permutation_in; [symmetry; exact PM|assumption]).
  - intros A. split; [|intros s b _ _ []]. intros s t b Hs Ht. apply A; (eapply Permutation_in; [exact PM|assumption]).
Qed.
