(** Crash safety of the artifact installation: a small Hoare logic over the possible
    on-disk states. *)
From Coq Require Import Permutation.
From Verif Require Import Base BaseLemmas KeyFile KeyFileLemmas Artifacts ArtifactsSpec ArtifactsProofs.

Section crash.
Variable good : string -> string -> content -> Prop.
Variable d0 : dir.
Variable live : Prop.
Variable keepN : list string.        (* the names in the manifest *)
Variable allimgs : list image.       (* its images *)

(** what the entry of an artifact link may become: the old link, a link to one of the new
    artifacts, or nothing if the bundle has no artifact of this name *)
Definition new (n : string) (v : option entry) : Prop :=
  (v = None /\ ~ In n keepN) \/
  exists g, v = Some (ELink (apath n g)) /\ (points d0 n n g \/ exists i, In i allimgs /\ i_name i = n /\ i_digest i = g).

Definition was (n : string) : Prop := valid_name n /\ exists g, hex_digest g /\ points d0 n n g.

(** what must hold of the possible on-disk states at every moment *)
Record safe (P : poss) : Prop := mk_safe {
  s_art : forall n g v, hex_digest g -> P (apath n g) v -> v <> None -> valid_name n /\ exists c, v = Some (EData c);
  s_tmp : forall n g t, ~ P (atmp n g) (Some (ELink t));
  s_link : forall l n g, visible l -> hex_digest g -> P l (Some (ELink (apath n g))) -> l = n \/ l = stale_link n;
  s_good : forall n g, valid_name n -> hex_digest g -> P n (Some (ELink (apath n g))) ->
           forall v, P (apath n g) v -> exists c, v = Some (EData c) /\ good n g c;
  s_vis : no_stale d0 -> forall n v, was n -> P n v -> new n v;
  s_stl : no_stale d0 -> forall n c, valid_name n -> ~ P (stale_link n) (Some (EData c))
}.

Lemma new_data n c : ~ new n (Some (EData c)).
Proof. intros [[K _]|(g & K & _)]; discriminate. Qed.

(** names whose data may be changed at any time *)
Definition scrap (P : poss) (k : string) : Prop := has_prefix "." k = true \/ exists c, P k (Some (EData c)).

Lemma scrap_was P k : safe P -> scrap P k -> no_stale d0 -> ~ was k.
Proof.
  intros HS [H|[c H]] Hns HW.
  - destruct HW as [HW _]. apply valid_visible in HW. unfold visible in HW. congruence.
  - apply (new_data k c). now apply (s_vis _ HS Hns).
Qed.

Lemma scrap_stale P k n : safe P -> scrap P k -> no_stale d0 -> valid_name n -> k <> stale_link n.
Proof.
  intros HS [H|[c H]] Hns Hn E.
  - pose proof (stale_visible n Hn) as V. unfold visible in V. congruence.
  - subst k. now apply (s_stl _ HS Hns n c Hn).
Qed.

Lemma safe_sub (P Q : poss) : (forall k v, Q k v -> P k v) -> safe P -> safe Q.
Proof.
  intros H [A B C D E F]. constructor.
  - intros n g v Hg Hv. apply (A n g v Hg). auto.
  - intros n g t K. apply (B n g t). auto.
  - intros l n g Hl Hg K. apply (C l n g Hl Hg). auto.
  - intros n g Hn Hg K v Kv. apply (D n g Hn Hg); auto.
  - intros Hns n v Hw K. apply E; auto.
  - intros Hns n c Hn K. apply (F Hns n c Hn); auto.
Qed.

Lemma repo_ok_safe : repo_ok good d0 -> NoDup (map fst d0) /\ safe (on_disk d0).
Proof.
  intros [A B C D E]. split; [exact A|]. constructor; unfold on_disk.
  - intros n g v Hg -> Hv. now apply B.
  - intros n g t K. symmetry in K. now apply (C n g t).
  - intros l n g Hl Hg K. apply (D l n g Hl Hg). now symmetry.
  - intros n g Hn Hg K v ->. apply (E n g Hn Hg). now symmetry.
  - intros _ n v (_ & g & Hg & Hp) ->. right. exists g. split; [exact Hp|now left].
  - intros Hns n c Hn K. rewrite (Hns n Hn) in K. discriminate.
Qed.

Lemma safe_repo_ok d : NoDup (map fst d) -> safe (on_disk d) -> repo_ok good d.
Proof.
  intros A [B C D E _ _]. unfold on_disk in *. constructor.
  - exact A.
  - intros n g Hg K. now apply (B n g _ Hg eq_refl).
  - intros n g t K. apply (C n g t). now symmetry.
  - intros l n g Hl Hg K. apply (D l n g Hl Hg). now symmetry.
  - intros n g Hn Hg K. now apply (E n g Hn Hg (eq_sym K) _ eq_refl).
Qed.

Definition PS (s : st) : poss := poss_ops (s_ops s) d0 (on_disk d0).

Record G (s : st) : Prop := mk_G {
  G_dir : s_dir s = play (s_ops s) d0;
  G_safe : forall p q, s_ops s = p ++ q -> safe (poss_ops p d0 (on_disk d0));
  G_nodup : NoDup (map fst (s_dir s))
}.

Lemma G_cur s : G s -> forall k, PS s k (assoc k (s_dir s)).
Proof. intros [H _ _]. rewrite H. apply poss_ops_cur. reflexivity. Qed.

Lemma G_now s : G s -> safe (PS s).
Proof. intros [_ H _]. apply (H (s_ops s) []). now rewrite app_nil_r. Qed.

Definition asrt := dir -> poss -> Prop.

(** Any run of [m] from a state with [Pre] keeps every intermediate on-disk state safe, never
    aborts, and ends with [Post] if it succeeds; if no system call fails and [live] holds it
    succeeds. *)
Definition hoare {A} (Pre : asrt) (m : M A) (Post : A -> asrt) : Prop :=
  forall s, G s -> Pre (s_dir s) (PS s) ->
  match m s with
  | (Ok a, s') => G s' /\ Post a (s_dir s') (PS s') /\ (s_env s = [] -> s_env s' = [])
  | (Err, s') => G s' /\ (s_env s = [] -> ~ live)
  | (Abort, _) => False
  end.

Definition facts (d : dir) (P : poss) : Prop :=
  NoDup (map fst d) /\ safe P /\ forall k, P k (assoc k d).

Lemma step_G o s : G s -> safe (poss_step o (s_dir s) (PS s)) ->
  G (mkst (app_op o (s_dir s)) (s_ops s ++ [o]) []) /\
  PS (mkst (app_op o (s_dir s)) (s_ops s ++ [o]) []) = poss_step o (s_dir s) (PS s).
Proof.
  intros HG Hs. destruct HG as [A B C].
  assert (E : PS (mkst (app_op o (s_dir s)) (s_ops s ++ [o]) []) = poss_step o (s_dir s) (PS s)).
  { unfold PS. cbn [s_ops s_dir]. rewrite A. apply poss_ops_snoc. }
  split; [|exact E]. constructor; cbn [s_dir s_ops].
  - now rewrite play_snoc, <- A.
  - intros p q Hpq. destruct q as [|y q'] eqn:Eq.
    + rewrite app_nil_r in Hpq. subst p. unfold PS in E. cbn [s_ops] in E. now rewrite E.
    + destruct (@exists_last _ (y :: q')) as (q2 & z & Hz); [discriminate|]. rewrite Hz in Hpq.
      rewrite app_assoc in Hpq. apply app_inj_tail in Hpq. destruct Hpq as [Hpq _]. now apply (B p q2).
  - now apply app_op_nodup.
Qed.

Lemma G_env s e : G s -> G (mkst (s_dir s) (s_ops s) e).
Proof. intros [A B C]. now constructor. Qed.

Lemma hoare_step o (Pre : asrt) (Post : unit -> asrt) :
  (forall d P, Pre d P -> facts d P -> safe (poss_step o d P) /\ Post tt (app_op o d) (poss_step o d P)) ->
  hoare Pre (step o) Post.
Proof.
  intros H s HG HP. destruct (H _ _ HP) as [H1 H2].
  { split; [apply (G_nodup _ HG)|]. split; [now apply G_now|now apply G_cur]. }
  destruct (step_G o s HG H1) as [H3 H4]. unfold step.
  destruct (s_env s) as [|[|] e] eqn:E; cbn [s_dir s_env].
  - split; [exact H3|]. split; [|auto]. rewrite H4. exact H2.
  - split; [|split; [|discriminate]].
    + apply (G_env _ e) in H3. exact H3.
    + unfold PS in *. cbn [s_ops] in *. rewrite H4. exact H2.
  - split; [now apply (G_env _ e) in HG|discriminate].
Qed.

Lemma hoare_ret {A} (a : A) (Pre : asrt) (Post : A -> asrt) : (forall d P, Pre d P -> facts d P -> Post a d P) -> hoare Pre (ret a) Post.
Proof.
  intros H s HG HP. unfold ret. split; [exact HG|]. split; [|auto]. apply H; [exact HP|].
  split; [apply (G_nodup _ HG)|]. split; [now apply G_now|now apply G_cur].
Qed.

Lemma hoare_fail {A} (Pre : asrt) (Post : A -> asrt) : (forall d P, Pre d P -> facts d P -> ~ live) -> hoare Pre fail Post.
Proof.
  intros H s HG HP. unfold fail. split; [exact HG|]. intros _. apply (H _ _ HP).
  split; [apply (G_nodup _ HG)|]. split; [now apply G_now|now apply G_cur].
Qed.

Lemma hoare_bind {A B} (Pre : asrt) (m : M A) (f : A -> M B) (Mid : A -> asrt) (Post : B -> asrt) :
  hoare Pre m Mid -> (forall a, hoare (Mid a) (f a) Post) -> hoare Pre (bindM m f) Post.
Proof.
  intros H1 H2 s HG HP. unfold bindM. specialize (H1 s HG HP). destruct (m s) as [[a| |] s'].
  - destruct H1 as (HG' & HM & He). specialize (H2 a s' HG' HM). destruct (f a s') as [[b| |] s''].
    + destruct H2 as (X & Y & Z). auto.
    + destruct H2 as (X & Y). auto.
    + exact H2.
  - exact H1.
  - exact H1.
Qed.

Lemma hoare_get {B} (Pre : asrt) (f : dir -> M B) (Post : B -> asrt) :
  (forall d, hoare (fun d' P => d' = d /\ Pre d P) (f d) Post) -> hoare Pre (bindM get_dir f) Post.
Proof.
  intros H s HG HP. unfold bindM, get_dir. apply (H (s_dir s) s HG). auto.
Qed.

Lemma hoare_pre {A} (Pre Pre' : asrt) (m : M A) (Post : A -> asrt) :
  (forall d P, Pre d P -> facts d P -> Pre' d P) -> hoare Pre' m Post -> hoare Pre m Post.
Proof.
  intros H1 H2 s HG HP. apply (H2 s HG), H1; [exact HP|].
  split; [apply (G_nodup _ HG)|]. split; [now apply G_now|now apply G_cur].
Qed.

Lemma hoare_post {A} (Pre : asrt) (m : M A) (Post Post' : A -> asrt) :
  hoare Pre m Post' -> (forall a d P, Post' a d P -> facts d P -> Post a d P) -> hoare Pre m Post.
Proof.
  intros H1 H2 s HG HP. specialize (H1 s HG HP). destruct (m s) as [[a| |] s'].
  - destruct H1 as (X & Y & Z). split; [exact X|]. split; [|exact Z]. apply H2; [exact Y|].
    split; [apply (G_nodup _ X)|]. split; [now apply G_now|now apply G_cur].
  - exact H1.
  - exact H1.
Qed.

Lemma hoare_if {A} (b : bool) (Pre : asrt) (m1 m2 : M A) (Post : A -> asrt) :
  (b = true -> hoare Pre m1 Post) -> (b = false -> hoare Pre m2 Post) -> hoare Pre (if b then m1 else m2) Post.
Proof. destruct b; auto. Qed.

(** a loop: [Inv done rest] *)
Lemma hoare_forM {A} (f : A -> M unit) (Inv : list A -> asrt) :
  forall l done,
  (forall x pre post, l = pre ++ x :: post -> hoare (Inv (done ++ pre)) (f x) (fun _ => Inv (done ++ pre ++ [x]))) ->
  hoare (Inv done) (forM l f) (fun _ => Inv (done ++ l)).
Proof.
  induction l as [|a l IH]; intros done H; cbn [forM].
  - apply hoare_ret. intros d P K _. now rewrite app_nil_r.
  - apply hoare_bind with (Mid := fun _ => Inv (done ++ [a])).
    + specialize (H a [] l eq_refl). rewrite app_nil_r in H. exact H.
    + intros _. apply hoare_post with (Post' := fun _ => Inv ((done ++ [a]) ++ l)).
      * apply IH. intros x pre post E. specialize (H x (a :: pre) post).
        rewrite <- !app_assoc. cbn [app]. apply H. now rewrite E.
      * intros _ d P K _. now rewrite <- app_assoc in K.
Qed.

(** ** Changes which keep the on-disk states safe *)

(** data written to or removed from an entry which is not an artifact *)
Lemma safe_data k c d P : parse_artifact k = None -> scrap P k -> safe P -> safe (poss_step (OData k c) d P).
Proof.
  intros Hk HX HS. pose proof HS as [A B C D E F]. cbn [poss_step]. constructor.
  - intros n g v Hg [K|[K ->]] Hv; [now apply (A n g v)|]. subst k. rewrite (parse_apath _ _ Hg) in Hk. discriminate.
  - intros n g t [K|[_ K]]; [now apply (B n g t)|discriminate].
  - intros l n g Hl Hg [K|[_ K]]; [now apply (C l n g)|discriminate].
  - intros n g Hn Hg [K|[_ K]]; [|discriminate]. intros v [Kv|[Kv _]]; [now apply (D n g)|].
    subst k. rewrite (parse_apath _ _ Hg) in Hk. discriminate.
  - intros Hns n v Hw [K|[-> _]]; [now apply E|]. now apply (scrap_was P k HS HX) in Hw.
  - intros Hns n c' Hn [K|[K _]]; [now apply (F Hns n c' Hn)|]. symmetry in K. now apply (scrap_stale P k n HS HX Hns Hn) in K.
Qed.

Lemma safe_remove k d P : parse_artifact k = None -> (no_stale d0 -> was k -> new k None) -> safe P -> safe (poss_step (ORemove k) d P).
Proof.
  intros Hk HX HS. pose proof HS as [A B C D E F]. cbn [poss_step]. constructor.
  - intros n g v Hg [K|[K ->]] Hv; [now apply (A n g v)|congruence].
  - intros n g t [K|[_ K]]; [now apply (B n g t)|discriminate].
  - intros l n g Hl Hg [K|[_ K]]; [now apply (C l n g)|discriminate].
  - intros n g Hn Hg [K|[_ K]]; [|discriminate]. intros v [Kv|[Kv _]]; [now apply (D n g)|].
    subst k. rewrite (parse_apath _ _ Hg) in Hk. discriminate.
  - intros Hns n v Hw [K|[-> ->]]; [now apply E|auto].
  - intros Hns n c' Hn [K|[_ K]]; [now apply (F Hns n c' Hn)|discriminate].
Qed.

(** data of an artifact which no link can point to *)
Lemma safe_art_data m h c d P : hex_digest h -> valid_name m -> ~ P m (Some (ELink (apath m h))) -> safe P ->
  safe (poss_step (OData (apath m h) c) d P).
Proof.
  intros Hh Hm Hno [A B C D E F]. cbn [poss_step]. constructor.
  - intros n g v Hg [K|[K ->]] Hv; [now apply (A n g v)|]. apply apath_inj in K; auto. destruct K as [-> ->]. eauto.
  - intros n g t [K|[_ K]]; [now apply (B n g t)|discriminate].
  - intros l n g Hl Hg [K|[_ K]]; [now apply (C l n g)|discriminate].
  - intros n g Hn Hg [K|[_ K]]; [|discriminate]. intros v [Kv|[Kv _]]; [now apply (D n g)|].
    apply apath_inj in Kv; auto. destruct Kv as [-> ->]. contradiction.
  - intros Hns n v Hw [K|[K _]]; [now apply E|]. destruct Hw as [Hw _]. now apply valid_visible, (visible_not_apath n m h) in Hw.
  - intros Hns n c' Hn [K|[K _]]; [now apply (F Hns n c' Hn)|]. apply stale_visible in Hn. now apply (visible_not_apath _ m h) in Hn.
Qed.

Lemma safe_art_remove m h d P : hex_digest h -> valid_name m -> ~ P m (Some (ELink (apath m h))) -> safe P ->
  safe (poss_step (ORemove (apath m h)) d P).
Proof.
  intros Hh Hm Hno [A B C D E F]. cbn [poss_step]. constructor.
  - intros n g v Hg [K|[K ->]] Hv; [now apply (A n g v)|congruence].
  - intros n g t [K|[_ K]]; [now apply (B n g t)|discriminate].
  - intros l n g Hl Hg [K|[_ K]]; [now apply (C l n g)|discriminate].
  - intros n g Hn Hg [K|[_ K]]; [|discriminate]. intros v [Kv|[Kv _]]; [now apply (D n g)|].
    apply apath_inj in Kv; auto. destruct Kv as [-> ->]. contradiction.
  - intros Hns n v Hw [K|[K _]]; [now apply E|]. destruct Hw as [Hw _]. now apply valid_visible, (visible_not_apath n m h) in Hw.
  - intros Hns n c' Hn [K|[K _]]; [now apply (F Hns n c' Hn)|]. apply stale_visible in Hn. now apply (visible_not_apath _ m h) in Hn.
Qed.

(** syncs only remove possibilities *)
Lemma safe_syncfs d P : facts d P -> safe (poss_step OSyncfs d P).
Proof. intros (_ & H & K). apply (safe_sub P); [|exact H]. cbn [poss_step]. unfold on_disk. intros k v ->. apply K. Qed.

Lemma syncdir_sub d (P : poss) : (forall k, P k (assoc k d)) -> forall k v, poss_step OSyncDir d P k v -> P k v.
Proof.
  intros H k v. cbn [poss_step]. specialize (H k). destruct (assoc k d) as [[t|c]|]; intros K; [subst; exact H|tauto|subst; exact H].
Qed.

(** a temporary link *)
Lemma safe_tmplink n h d P : valid_name n -> hex_digest h -> safe P -> safe (poss_step (OLink (stale_link n) (apath n h)) d P).
Proof.
  intros Hn Hh [A B C D E F]. cbn [poss_step]. pose proof (stale_visible n Hn) as V. constructor.
  - intros m g v Hg [K|[K _]] Hv; [now apply (A m g v)|]. exfalso. symmetry in K. now apply (visible_not_apath _ _ _ V) in K.
  - intros m g t [K|[K _]]; [now apply (B m g t)|]. symmetry in K. now apply (visible_not_atmp _ _ _ V) in K.
  - intros l m g Hl Hg [K|[-> K]]; [now apply (C l m g)|]. assert (K' : apath m g = apath n h) by congruence. clear K. rename K' into K. apply apath_inj in K; auto. destruct K as [-> _]. now right.
  - intros m g Hm Hg [K|[K _]]; [|symmetry in K; now apply (stale_not_valid _ _ Hm) in K].
    intros v [Kv|[Kv _]]; [now apply (D m g)|]. exfalso. symmetry in Kv. now apply (visible_not_apath _ _ _ V) in Kv.
  - intros Hns m v Hw [K|[K _]]; [now apply E|]. destruct Hw as [Hw _]. symmetry in K. now apply (stale_not_valid _ _ Hw) in K.
  - intros Hns m c' Hm [K|[_ K]]; [now apply (F Hns m c' Hm)|discriminate].
Qed.

(** replacing the artifact link by the temporary link *)
Lemma safe_relink n h d P : valid_name n -> hex_digest h -> safe P ->
  (forall t, P (stale_link n) (Some (ELink t)) -> t = apath n h) ->
  (forall v, P (apath n h) v -> exists c, v = Some (EData c) /\ good n h c) ->
  (no_stale d0 -> was n -> new n (Some (ELink (apath n h)))) ->
  safe (poss_step (ORename (stale_link n) n) d P).
Proof.
  intros Hn Hh [A B C D E F] Ht Hg0 Hnew. cbn [poss_step]. pose proof (stale_visible n Hn) as V. pose proof (valid_visible n Hn) as Vn. constructor.
  - intros m g v Hg [K|[[_ ->]|[K _]]] Hv; [now apply (A m g v)|congruence|].
    exfalso. symmetry in K. now apply (visible_not_apath _ _ _ Vn) in K.
  - intros m g t [K|[[_ K]|[K _]]]; [now apply (B m g t)|discriminate|]. symmetry in K. now apply (visible_not_atmp _ _ _ Vn) in K.
  - intros l m g Hl Hg [K|[[_ K]|[-> [K _]]]]; [now apply (C l m g)|discriminate|].
    apply Ht in K. apply apath_inj in K; auto. destruct K as [-> _]. now left.
  - assert (Hap : forall m g v, (P (apath m g) v \/ apath m g = stale_link n /\ v = None \/ apath m g = n /\ P (stale_link n) v /\ v <> None) -> P (apath m g) v).
    { intros m g v [Kv|[[Kv _]|[Kv _]]]; [exact Kv| |]; exfalso; symmetry in Kv;
        [now apply (visible_not_apath _ _ _ V) in Kv|now apply (visible_not_apath _ _ _ Vn) in Kv]. }
    intros m g Hm Hg [K|[[_ K]|[-> [K _]]]]; [|discriminate|].
    + intros v Kv. apply Hap in Kv. now apply (D m g).
    + intros v Kv. apply Hap in Kv. apply Ht in K. apply apath_inj in K; auto. destruct K as [_ ->]. now apply Hg0.
  - intros Hns m v Hw [K|[[K _]|[K [K2 K3]]]]; [now apply E| |].
    + destruct Hw as [Hw _]. symmetry in K. now apply (stale_not_valid _ _ Hw) in K.
    + subst m. destruct v as [[t|c]|]; [|now apply (F Hns n c Hn) in K2|congruence].
      apply Ht in K2. subst t. auto.
  - intros Hns m c' Hm [K|[[_ K]|[K [K2 _]]]]; [now apply (F Hns m c' Hm)|discriminate|now apply (stale_not_valid _ _ Hn) in K].
Qed.

(** a new artifact appears under its name *)
Lemma safe_publish m h d P : valid_name m -> hex_digest h -> safe P ->
  ~ P m (Some (ELink (apath m h))) ->
  (forall v, P (atmp m h) v -> v <> None -> exists c, v = Some (EData c)) ->
  safe (poss_step (ORename (atmp m h) (apath m h)) d P).
Proof.
  intros Hm Hh [A B C D E F] Hno Ht. cbn [poss_step].
  assert (Hnt : forall n g, hex_digest g -> apath n g <> atmp m h).
  { intros n g Hg Eq. pose proof (parse_apath n g Hg) as X. rewrite Eq, (parse_atmp m h Hh) in X. discriminate. }
  constructor.
  - intros n g v Hg [K|[[_ ->]|[K [K2 K3]]]] Hv; [now apply (A n g v)|congruence|].
    apply apath_inj in K; auto. destruct K as [-> ->]. split; [exact Hm|]. now apply Ht.
  - intros n g t [K|[[_ K]|[K [K2 K3]]]]; [now apply (B n g t)|discriminate|].
    destruct (Ht _ K2 K3) as [c Ec]. discriminate.
  - intros l n g Hl Hg [K|[[_ K]|[-> _]]]; [now apply (C l n g)|discriminate|].
    unfold visible in Hl. rewrite apath_hidden in Hl. discriminate.
  - intros n g Hn Hg [K|[[_ K]|[K [K2 K3]]]]; [|discriminate|destruct (Ht _ K2 K3) as [c Ec]; discriminate].
    intros v [Kv|[[Kv _]|[Kv _]]]; [now apply (D n g)|now apply Hnt in Kv|].
    apply apath_inj in Kv; auto. destruct Kv as [-> ->]. contradiction.
  - intros Hns n v Hw [K|[[K _]|[K _]]]; [now apply E| |]; destruct Hw as [Hw _]; apply valid_visible in Hw.
    + now apply (visible_not_atmp n m h) in Hw.
    + now apply (visible_not_apath n m h) in Hw.
  - intros Hns n c' Hn [K|[[_ K]|[K _]]]; [now apply (F Hns n c' Hn)|discriminate|].
    apply stale_visible in Hn. now apply (visible_not_apath _ m h) in Hn.
Qed.

(** ** The table and the directory *)
Definition akey (a : art) : string * string := (a_name a, a_digest a).
Definition apth (a : art) : string := apath (a_name a) (a_digest a).

Definition goodP (P : poss) (a : art) : Prop :=
  forall v, P (apth a) v -> exists c, v = Some (EData c) /\ good (a_name a) (a_digest a) c.
Definition okP (d : dir) (P : poss) (a : art) : Prop :=
  goodP P a \/ exists t, assoc (stale_link (a_name a)) d = Some (ELink t).

(** [d] and [T] agree *)
Record tab (T : table) (d : dir) : Prop := mk_tab {
  t_in : forall a, In a T -> valid_name (a_name a) /\ hex_digest (a_digest a) /\ exists c, assoc (apth a) d = Some (EData c);
  t_uniq : NoDup (map akey T);
  t_all : forall n g, hex_digest g -> assoc (apath n g) d <> None -> In (n, g) (map akey T);
  t_live : live -> forall n, valid_name n -> assoc (stale_link n) d = None
}.

(** links cannot be lost or come back *)
Definition settled (d : dir) (P : poss) : Prop := forall l t, P l (Some (ELink t)) -> assoc l d = Some (ELink t).

(** artifacts without reference cannot be linked *)
Definition refd (T : table) (P : poss) : Prop :=
  forall a, In a T -> P (a_name a) (Some (ELink (apth a))) -> a_refs a <> 0.

Lemma tab_uniq T d a b : tab T d -> In a T -> In b T -> akey a = akey b -> a = b.
Proof.
  intros [_ H _ _]. induction T as [|x T IH]; intros Ha Hb E; [destruct Ha|].
  cbn [map] in H. inversion H as [|? ? Hn Hd]; subst.
  destruct Ha as [->|Ha], Hb as [->|Hb]; auto.
  - destruct Hn. rewrite E. now apply in_map.
  - destruct Hn. rewrite <- E. now apply in_map.
Qed.

Lemma apth_inj T d a b : tab T d -> In a T -> In b T -> apth a = apth b -> a = b.
Proof.
  intros H Ha Hb E. apply (tab_uniq T d a b H Ha Hb).
  destruct (t_in _ _ H a Ha) as (_ & X & _). destruct (t_in _ _ H b Hb) as (_ & Y & _).
  apply apath_inj in E; auto. unfold akey. destruct E as [-> ->]. reflexivity.
Qed.

(** the links cannot be lost *)
Definition ldur (d : dir) (P : poss) : Prop := forall l t v, assoc l d = Some (ELink t) -> P l v -> v = Some (ELink t).

(** ** Removing data *)
Record base (T : table) (d : dir) (P : poss) : Prop := mk_base {
  b_tab : tab T d;
  b_set : settled d P;
  b_ref : refd T P;
  b_dur : ldur d P
}.

(** the links of a directory *)
Definition lview (d : dir) (l : string) : option string :=
  match assoc l d with Some (ELink t) => Some t | _ => None end.

Lemma lview_set k c d l : (forall t, assoc k d <> Some (ELink t)) -> lview (assoc_set k (EData c) d) l = lview d l.
Proof.
  intros H. unfold lview. destruct (string_dec k l) as [->|Hn].
  - rewrite assoc_set_eq. destruct (assoc l d) as [[t|c']|]; [now destruct (H t)|reflexivity|reflexivity].
  - now rewrite assoc_set_neq.
Qed.

Lemma lview_remove k d l : (forall t, assoc k d <> Some (ELink t)) -> lview (assoc_remove k d) l = lview d l.
Proof.
  intros H. unfold lview. destruct (string_dec k l) as [->|Hn].
  - rewrite assoc_remove_eq. destruct (assoc l d) as [[t|c']|]; [now destruct (H t)|reflexivity|reflexivity].
  - now rewrite assoc_remove_neq.
Qed.

Lemma base_data T k c c0 d P : assoc k d = Some (EData c0) -> base T d P -> base T (app_op (OData k c) d) (poss_step (OData k c) d P).
Proof.
  intros Hk [[A B C D] HS HR HD]. cbn [app_op poss_step]. constructor; [constructor| | |].
  - intros a Ha. destruct (A a Ha) as (X & Y & c' & Z). split; [exact X|]. split; [exact Y|].
    destruct (string_dec k (apth a)) as [->|Hn]; [rewrite assoc_set_eq; eauto|rewrite assoc_set_neq by exact Hn; eauto].
  - exact B.
  - intros n g Hg K. apply (C n g Hg). destruct (string_dec k (apath n g)) as [->|Hn]; [congruence|].
    now rewrite assoc_set_neq in K.
  - intros Hl n Hn. destruct (string_dec k (stale_link n)) as [->|Hk']; [rewrite (D Hl n Hn) in Hk; discriminate|].
    rewrite assoc_set_neq by exact Hk'. now apply D.
  - intros l t [K|[_ K]]; [|discriminate]. apply HS in K. rewrite assoc_set_neq; [exact K|]. intros ->. congruence.
  - intros a Ha [K|[_ K]]; [now apply HR|discriminate].
  - intros l t v Hl Kv. destruct (string_dec k l) as [->|Hn]; [rewrite assoc_set_eq in Hl; discriminate|].
    rewrite assoc_set_neq in Hl by exact Hn. destruct Kv as [Kv|[Kv _]]; [now apply (HD l t v)|congruence].
Qed.

Lemma base_remove T k c0 d P : assoc k d = Some (EData c0) -> parse_artifact k = None ->
  base T d P -> base T (app_op (ORemove k) d) (poss_step (ORemove k) d P).
Proof.
  intros Hk Hp [[A B C D] HS HR HD]. cbn [app_op poss_step]. constructor; [constructor| | |].
  - intros a Ha. destruct (A a Ha) as (X & Y & c' & Z). split; [exact X|]. split; [exact Y|].
    rewrite assoc_remove_neq; [eauto|]. intros ->. unfold apth in Hp. rewrite (parse_apath _ _ Y) in Hp. discriminate.
  - exact B.
  - intros n g Hg K. apply (C n g Hg). intros E. apply K.
    destruct (string_dec k (apath n g)) as [->|Hn]; [apply assoc_remove_eq|]. now rewrite assoc_remove_neq.
  - intros Hl n Hn. destruct (string_dec k (stale_link n)) as [->|Hk']; [apply assoc_remove_eq|].
    rewrite assoc_remove_neq by exact Hk'. now apply D.
  - intros l t [K|[_ K]]; [|discriminate]. apply HS in K. rewrite assoc_remove_neq; [exact K|]. intros ->. congruence.
  - intros a Ha [K|[_ K]]; [now apply HR|discriminate].
  - intros l t v Hl Kv. destruct (string_dec k l) as [E|Hn]; [rewrite <- E, assoc_remove_eq in Hl; discriminate|].
    rewrite assoc_remove_neq in Hl by exact Hn. destruct Kv as [Kv|[Kv _]]; [now apply (HD l t v)|congruence].
Qed.

Lemma base_remove_art F a T c0 d P : assoc (apth a) d = Some (EData c0) ->
  base (F ++ a :: T) d P -> base (F ++ T) (app_op (ORemove (apth a)) d) (poss_step (ORemove (apth a)) d P).
Proof.
  intros Hk HB. pose proof (b_tab _ _ _ HB) as HT. destruct HB as [[A B C D] HS HR HD]. cbn [app_op poss_step].
  assert (Hin : In a (F ++ a :: T)) by (apply in_or_app; right; now left).
  assert (Hsub : forall b, In b (F ++ T) -> In b (F ++ a :: T)).
  { intros b Hb. apply in_app_or in Hb. apply in_or_app. destruct Hb; [now left|right; now right]. }
  assert (Hno : forall b, In b (F ++ T) -> akey b <> akey a).
  { intros b Hb E. rewrite map_app in B. cbn [map] in B. apply NoDup_remove_2 in B. apply B.
    rewrite <- map_app, <- E. now apply in_map. }
  constructor; [constructor| | |].
  - intros b Hb. destruct (A b (Hsub b Hb)) as (X & Y & c' & Z). split; [exact X|]. split; [exact Y|].
    rewrite assoc_remove_neq; [eauto|]. intros E. apply (Hno b Hb).
    symmetry in E. apply (apth_inj _ _ _ _ HT (Hsub b Hb) Hin) in E. now subst.
  - rewrite map_app in *. cbn [map] in B. now apply NoDup_remove_1 in B.
  - intros n g Hg K. destruct (string_dec (apth a) (apath n g)) as [E|Hn]; [rewrite E, assoc_remove_eq in K; congruence|].
    rewrite assoc_remove_neq in K by exact Hn. pose proof (C n g Hg K) as X.
    rewrite map_app in *. cbn [map] in X. apply in_app_or in X. apply in_or_app. destruct X as [X|[X|X]]; [now left| |now right].
    unfold akey in X. injection X as <- <-. now destruct Hn.
  - intros Hl n Hn. destruct (string_dec (apth a) (stale_link n)) as [->|Hk']; [apply assoc_remove_eq|].
    rewrite assoc_remove_neq by exact Hk'. now apply D.
  - intros l t [K|[_ K]]; [|discriminate]. apply HS in K. rewrite assoc_remove_neq; [exact K|]. intros <-. congruence.
  - intros b Hb [K|[_ K]]; [now apply HR; auto|discriminate].
  - intros l t v Hl Kv. destruct (string_dec (apth a) l) as [E|Hn]; [rewrite <- E, assoc_remove_eq in Hl; discriminate|].
    rewrite assoc_remove_neq in Hl by exact Hn. destruct Kv as [Kv|[Kv _]]; [now apply (HD l t v)|congruence].
Qed.

Lemma okP_data k c c0 d P a : assoc k d = Some (EData c0) -> apth a <> k -> okP d P a ->
  okP (app_op (OData k c) d) (poss_step (OData k c) d P) a.
Proof.
  intros Hk Hne [H|[t H]]; [left|right].
  - intros v [K|[K _]]; [now apply H|contradiction].
  - exists t. cbn [app_op]. rewrite assoc_set_neq; [exact H|]. intros ->. congruence.
Qed.

Lemma okP_remove k c0 d P a : assoc k d = Some (EData c0) -> apth a <> k -> okP d P a ->
  okP (app_op (ORemove k) d) (poss_step (ORemove k) d P) a.
Proof.
  intros Hk Hne [H|[t H]]; [left|right].
  - intros v [K|[K _]]; [now apply H|contradiction].
  - exists t. cbn [app_op]. rewrite assoc_remove_neq; [exact H|]. intros ->. congruence.
Qed.

Lemma tidy_remove k d : tidy d -> tidy (assoc_remove k d).
Proof.
  intros H x c K. destruct (string_dec k x) as [->|Hn]; [rewrite assoc_remove_eq in K; discriminate|].
  rewrite assoc_remove_neq in K by exact Hn. now apply (H x c).
Qed.

(** ** Pruning: the unexpected data *)
Section prune.
Variable w : world.
Variable L : string -> option string.    (* the links, unchanged *)
Variable live_open : live -> forall k, w_open w k <> None.

Definition keepable (T : table) (d : dir) (P : poss) : Prop :=
  forall a, In a T -> (a_refs a <> 0 \/ w_open w (apth a) = Some true) -> okP d P a.

Record U (T : table) (dI : dir) (done touched : list string) (d : dir) (P : poss) : Prop := mk_U {
  u_base : base T d P;
  u_keep : keepable T d P;
  u_keys : forall k, assoc k d <> None -> assoc k dI <> None;
  u_tidy : forall k c, In k done -> assoc k d = Some (EData c) -> parse_artifact k <> None \/ k = ".rauc-cfs-store";
  u_rest : forall k, ~ In k touched -> assoc k d = assoc k dI;
  u_links : forall l, lview d l = L l
}.

Lemma prune_unexpected_ok T dI k e done rest : NoDup (map fst dI) -> dI = done ++ (k, e) :: rest ->
  hoare (U T dI (map fst done) (map fst done)) (prune_unexpected w (k, e))
        (fun _ => U T dI (map fst (done ++ [(k, e)])) (map fst (done ++ [(k, e)]))).
Proof.
  intros ND HdI. unfold prune_unexpected. cbn [fst].
  assert (Hk : assoc k dI = Some e).
  { apply assoc_nodup_in; [exact ND|]. rewrite HdI. apply in_or_app. right. now left. }
  assert (Hnew : ~ In k (map fst done)).
  { rewrite HdI, map_app in ND. cbn [map fst] in ND. apply NoDup_remove_2 in ND. intros X. apply ND, in_or_app. now left. }
  assert (Hext : forall x, In x (map fst (done ++ [(k, e)])) <-> In x (map fst done) \/ x = k).
  { intros x. rewrite map_app, in_app_iff. cbn. intuition. }
  destruct (parse_artifact k) as [[n g]|] eqn:Ep.
  { apply hoare_ret. intros d P [A B C D E F] _. constructor; auto.
    - intros x c Hx Hc. apply Hext in Hx. destruct Hx as [Hx| ->]; [now apply (D x c)|]. left. congruence.
    - intros x Hx. apply E. intros K. apply Hx, Hext. now left. }
  apply hoare_get. intros d1. unfold is_link.
  destruct (assoc k d1) as [[t|c0]|] eqn:Ek.
  - apply hoare_ret. intros d P [-> [A B C D E F]] _. constructor; auto.
    + intros x c Hx Hc. apply Hext in Hx. destruct Hx as [Hx| ->]; [now apply (D x c)|]. congruence.
    + intros x Hx. apply E. intros K. apply Hx, Hext. now left.
  - destruct (w_cfs w && String.eqb k ".rauc-cfs-store") eqn:Ec.
    + apply hoare_ret. intros d P [-> [A B C D E F]] _. constructor; auto.
      * intros x c Hx Hc. apply Hext in Hx. destruct Hx as [Hx| ->]; [now apply (D x c)|]. right.
        apply andb_true_iff in Ec. destruct Ec as [_ Ec]. now apply String.eqb_eq in Ec.
      * intros x Hx. apply E. intros K. apply Hx, Hext. now left.
    + set (J := fun (d : dir) (P : poss) => (exists c, assoc k d = Some (EData c)) /\ U T dI (map fst done) (map fst (done ++ [(k, e)])) d P).
      unfold rm_tree. apply hoare_get. intros d2.
      apply hoare_pre with (Pre' := fun d P => d2 = d1 /\ J d P).
      { intros d P [-> [-> [A B C D E F]]] _. split; [reflexivity|]. split; [eauto|]. constructor; auto.
        intros x Hx. apply E. intros K. apply Hx, Hext. now left. }
      intros s HG [-> HP]. rewrite Ek. revert s HG HP.
      change (hoare J (run _ <- forM (w_rm w k) (fun c => step (OData k c)) ;; step (ORemove k))
               (fun _ => U T dI (map fst (done ++ [(k, e)])) (map fst (done ++ [(k, e)])))).
      assert (Hart : forall a d, tab T d -> In a T -> apth a <> k).
      { intros a d HT Ha E. destruct (t_in _ _ HT a Ha) as (_ & Y & _). rewrite <- E in Ep. unfold apth in Ep.
        rewrite (parse_apath _ _ Y) in Ep. discriminate. }
      apply hoare_bind with (Mid := fun _ => J).
      * apply (hoare_forM (fun c => step (OData k c)) (fun _ => J) (w_rm w k) []).
        intros c pre post _. apply hoare_step. intros d P [[c1 Hc1] [A B C D E F]] [_ [HS Hcur]].
        split; [apply safe_data; auto; right; exists c1; rewrite <- Hc1; apply Hcur|]. split; [cbn [app_op]; rewrite assoc_set_eq; eauto|]. constructor.
        -- exact (base_data T k c c1 d P Hc1 A).
        -- intros a Ha Hor. apply (okP_data k c c1); auto. apply (Hart a d); [apply A|exact Ha].
        -- cbn [app_op]. intros x Hx. destruct (string_dec k x) as [<-|Hn]; [congruence|]. rewrite assoc_set_neq in Hx by exact Hn. now apply C.
        -- cbn [app_op]. intros x c' Hx Hc'. destruct (string_dec k x) as [<-|Hn]; [contradiction|]. rewrite assoc_set_neq in Hc' by exact Hn. now apply (D x c').
        -- cbn [app_op]. intros x Hx. destruct (string_dec k x) as [<-|Hn]; [exfalso; apply Hx, Hext; now right|].
           rewrite assoc_set_neq by exact Hn. now apply E.
        -- intros l. cbn [app_op]. rewrite lview_set; [apply F|congruence].
      * intros _. apply hoare_step. intros d P [[c1 Hc1] [A B C D E F]] [_ [HS Hcur]].
        split; [apply safe_remove; auto; intros Hns Hw; exfalso; apply (scrap_was P k HS) in Hw; auto; right; exists c1; rewrite <- Hc1; apply Hcur|]. constructor.
        -- exact (base_remove T k c1 d P Hc1 Ep A).
        -- intros a Ha Hor. apply (okP_remove k c1); auto. apply (Hart a d); [apply A|exact Ha].
        -- cbn [app_op]. intros x Hx. destruct (string_dec k x) as [<-|Hn]; [congruence|]. rewrite assoc_remove_neq in Hx by exact Hn. now apply C.
        -- cbn [app_op]. intros x c' Hx Hc'. destruct (string_dec k x) as [<-|Hn]; [rewrite assoc_remove_eq in Hc'; discriminate|].
           rewrite assoc_remove_neq in Hc' by exact Hn. apply Hext in Hx. destruct Hx as [Hx|Hx]; [|now subst]. now apply (D x c').
        -- cbn [app_op]. intros x Hx. destruct (string_dec k x) as [<-|Hn]; [exfalso; apply Hx, Hext; now right|].
           rewrite assoc_remove_neq by exact Hn. now apply E.
        -- intros l. cbn [app_op]. rewrite lview_remove; [apply F|congruence].
  - apply hoare_pre with (Pre' := fun _ _ => False); [|intros s _ []].
    intros d P [-> H] _. pose proof (u_rest _ _ _ _ _ _ H k Hnew) as X. congruence.
Qed.

(** ** Pruning: the unreferenced artifacts *)
Record V (F T : table) (d : dir) (P : poss) : Prop := mk_V {
  v_base : base (F ++ T) d P;
  v_F : forall a, In a F -> okP d P a;
  v_T : keepable T d P;
  v_tidy : tidy d;
  v_links : forall l, lview d l = L l
}.

Lemma prune_arts_ok T : forall F,
  hoare (V F T) (prune_arts w T)
        (fun T' d P => V (F ++ T') [] d P /\ incl T' T /\ forall a, In a T -> a_refs a <> 0 -> In a T').
Proof.
  induction T as [|a T IH]; intros F; cbn [prune_arts].
  - apply hoare_ret. intros d P H _. split; [|split; [intros x []|intros x []]].
    destruct H as [A B C D E]. constructor; auto.
    + rewrite !app_nil_r in *. exact A.
    + intros x Hx. rewrite app_nil_r in Hx. auto.
  - assert (Hskip : (a_refs a <> 0 \/ w_open w (apth a) = Some true) ->
      hoare (V F (a :: T)) (run r' <- prune_arts w T;; ret (a :: r'))
        (fun T' d P => V (F ++ T') [] d P /\ incl T' (a :: T) /\ forall x, In x (a :: T) -> a_refs x <> 0 -> In x T')).
    { intros Ha. apply hoare_bind with (Mid := fun T' d P => V ((F ++ [a]) ++ T') [] d P /\ incl T' T /\ forall x, In x T -> a_refs x <> 0 -> In x T').
      - apply hoare_pre with (Pre' := V (F ++ [a]) T); [|apply IH].
        intros d P [A B C D E] _. constructor; auto.
        + rewrite <- app_assoc. exact A.
        + intros x Hx. apply in_app_or in Hx. destruct Hx as [Hx|[<-|[]]]; [now apply B|]. apply C; [now left|exact Ha].
        + intros x Hx. apply C. now right.
      - intros T'. apply hoare_ret. intros d P (H & I1 & I2) _. rewrite <- app_assoc in H. cbn [app] in H.
        split; [exact H|]. split.
        + intros x [<-|Hx]; [now left|right; now apply I1].
        + intros x [<-|Hx] Hr; [now left|right; now apply I2]. }
    destruct (Nat.eqb (a_refs a) 0) eqn:Er; cbn [negb].
    2:{ apply Hskip. left. now apply Nat.eqb_neq in Er. }
    apply Nat.eqb_eq in Er. fold (apth a).
    destruct (w_open w (apth a)) as [[|]|] eqn:Eo.
    + apply Hskip. now right.
    + clear Hskip.
      apply hoare_bind with (Mid := fun _ => V F T).
      * (* rm_tree *)
        unfold rm_tree. apply hoare_get. intros d1.
        set (J := fun (d : dir) (P : poss) => (exists c, assoc (apth a) d = Some (EData c)) /\
              V F (a :: T) d P).
        set (J' := fun (d : dir) (P : poss) => (exists c, assoc (apth a) d = Some (EData c)) /\
              base (F ++ a :: T) d P /\ (forall x, In x F -> okP d P x) /\ keepable T d P /\ tidy d /\ (forall l, lview d l = L l)).
        apply hoare_pre with (Pre' := fun d P => d1 = d /\ J' d P).
        { intros d P [-> [A B C D E]] _. split; [reflexivity|]. split; [|split; [exact A|]; split; [exact B|]; split; [|now split]].
          - destruct (t_in _ _ (b_tab _ _ _ A) a) as (_ & _ & X); [apply in_or_app; right; now left|exact X].
          - intros x Hx. apply C. now right. }
        intros s HG [-> HP]. pose proof HP as [[c1 Hc1] _]. rewrite Hc1. clear Hc1 c1. revert s HG HP.
        change (hoare J' (run _ <- forM (w_rm w (apth a)) (fun c => step (OData (apth a) c)) ;; step (ORemove (apth a))) (fun _ => V F T)).
        assert (Hoth : forall d x, tab (F ++ a :: T) d -> In x F \/ In x T -> apth x <> apth a).
        { intros d x HT Hx E.
          assert (Hin : In a (F ++ a :: T)) by (apply in_or_app; right; now left).
          assert (Hxin : In x (F ++ a :: T)) by (apply in_or_app; destruct Hx; [now left|right; now right]).
          apply (apth_inj _ _ _ _ HT Hxin Hin) in E. subst x.
          pose proof (t_uniq _ _ HT) as B. rewrite map_app in B. cbn [map] in B. apply NoDup_remove_2 in B. apply B.
          rewrite <- map_app. apply in_map, in_or_app. tauto. }
        assert (Hnl : forall d P, base (F ++ a :: T) d P -> ~ P (a_name a) (Some (ELink (apath (a_name a) (a_digest a))))).
        { intros d P HB K. apply (b_ref _ _ _ HB a); [apply in_or_app; right; now left|exact K|exact Er]. }
        apply hoare_bind with (Mid := fun _ => J').
        -- apply (hoare_forM (fun c => step (OData (apth a) c)) (fun _ => J') (w_rm w (apth a)) []).
           intros c pre post _. apply hoare_step. intros d P ([c1 Hc1] & A & B & C & D & E) [_ [HS _]].
           pose proof (b_tab _ _ _ A) as HT.
           destruct (t_in _ _ HT a) as (X & Y & _); [apply in_or_app; right; now left|].
           split; [apply safe_art_data; auto; now apply (Hnl d P)|].
           split; [cbn [app_op]; rewrite assoc_set_eq; eauto|]. split; [exact (base_data _ _ c c1 d P Hc1 A)|].
           split; [|split; [|split]].
           ++ intros x Hx. apply (okP_data (apth a) c c1); auto. apply (Hoth d); auto.
           ++ intros x Hx Hor. apply (okP_data (apth a) c c1); auto. apply (Hoth d); auto.
           ++ cbn [app_op]. intros k c' K. destruct (string_dec (apth a) k) as [<-|Hn].
              ** left. unfold apth. rewrite (parse_apath _ _ Y). discriminate.
              ** rewrite assoc_set_neq in K by exact Hn. now apply (D k c').
           ++ intros l. cbn [app_op]. rewrite lview_set; [apply E|congruence].
        -- intros _. apply hoare_step. intros d P ([c1 Hc1] & A & B & C & D & E) [_ [HS _]].
           pose proof (b_tab _ _ _ A) as HT.
           destruct (t_in _ _ HT a) as (X & Y & _); [apply in_or_app; right; now left|].
           split; [apply safe_art_remove; auto; now apply (Hnl d P)|].
           constructor.
           ++ exact (base_remove_art F a T c1 d P Hc1 A).
           ++ intros x Hx. apply (okP_remove (apth a) c1); auto. apply (Hoth d); auto.
           ++ intros x Hx Hor. apply (okP_remove (apth a) c1); auto. apply (Hoth d); auto.
           ++ now apply tidy_remove.
           ++ intros l. cbn [app_op]. rewrite lview_remove; [apply E|congruence].
      * intros _. apply hoare_post with (Post' := fun T' d P => V (F ++ T') [] d P /\ incl T' T /\ forall x, In x T -> a_refs x <> 0 -> In x T').
        -- apply IH.
        -- intros T' d P (H & I1 & I2) _. split; [exact H|]. split; [intros x Hx; right; now apply I1|].
           intros x [<-|Hx] Hr; [congruence|now apply I2].
    + apply hoare_fail. intros d P _ _ Hl. now apply (live_open Hl (apth a)).
Qed.

Lemma prune_ok T :
  hoare (fun d P => base T d P /\ keepable T d P /\ forall l, lview d l = L l) (prune w T)
        (fun T' d P => base T' d P /\ (forall a, In a T' -> okP d P a) /\ tidy d /\ (forall l, lview d l = L l) /\
                       incl T' T /\ forall a, In a T -> a_refs a <> 0 -> In a T').
Proof.
  unfold prune. apply hoare_get. intros dI.
  apply hoare_pre with (Pre' := fun d P => NoDup (map fst dI) /\ U T dI [] [] d P).
  { intros d P [-> (A & B & C)] (ND & _). split; [exact ND|]. constructor; auto; intros k c []. }
  intros s HG [ND HP]. revert s HG HP.
  change (hoare (U T dI (map fst (@nil (string * entry))) (map fst (@nil (string * entry)))) (run _ <- forM dI (prune_unexpected w) ;; prune_arts w T)
        (fun T' d P => base T' d P /\ (forall a, In a T' -> okP d P a) /\ tidy d /\ (forall l, lview d l = L l) /\
                       incl T' T /\ forall a, In a T -> a_refs a <> 0 -> In a T')).
  apply hoare_bind with (Mid := fun _ => V [] T).
  - apply hoare_post with (Post' := fun _ => U T dI (map fst ([] ++ dI)) (map fst ([] ++ dI))).
    + apply (hoare_forM (prune_unexpected w) (fun done => U T dI (map fst done) (map fst done)) dI []).
      intros [k e] pre post E. cbn [app]. now apply prune_unexpected_ok with (rest := post).
    + intros _ d P [A B C D E F] _. constructor; auto.
      * intros a [].
      * intros k c Hk. apply (D k c); [|exact Hk]. cbn [app].
        destruct (in_dec string_dec k (map fst dI)) as [X|X]; [exact X|].
        apply assoc_none in X. exfalso. apply (C k); [congruence|exact X].
  - intros _. apply hoare_post with (Post' := fun T' d P => V ([] ++ T') [] d P /\ incl T' T /\ forall a, In a T -> a_refs a <> 0 -> In a T').
    + apply prune_arts_ok.
    + intros T' d P ([A B C D E] & I1 & I2) _. cbn [app] in *. rewrite app_nil_r in A. auto 10.
Qed.
End prune.

(** ** Committing the links *)
Definition enabled (a : art) : bool := negb (Nat.eqb (a_refs a) 0).
Definition chosen (T : table) (n : string) : option art := find enabled (filter (fun a => String.eqb (a_name a) n) T).

Lemma chosen_spec T n a : chosen T n = Some a -> In a T /\ a_name a = n /\ a_refs a <> 0.
Proof.
  unfold chosen. intros H. apply find_some in H. destruct H as [H1 H2]. apply filter_In in H1. destruct H1 as [H1 H3].
  apply String.eqb_eq in H3. unfold enabled in H2. apply negb_true_iff, Nat.eqb_neq in H2. auto.
Qed.

Lemma visit_chosen d l : (forall a, In a l -> assoc (apth a) d <> None) -> visit d l = Ok (find enabled l).
Proof.
  induction l as [|a l IH]; intros H; [reflexivity|]. cbn [visit find]. fold (apth a).
  destruct (assoc (apth a) d) as [e|] eqn:E; [|exfalso; apply (H a); [now left|exact E]].
  unfold enabled at 1. destruct (Nat.eqb (a_refs a) 0); cbn [negb]; [|reflexivity].
  apply IH. intros b Hb. apply H. now right.
Qed.

Record CI (T : table) (done : list string) (d : dir) (P : poss) : Prop := mk_CI {
  c_tab : tab T d;
  c_ok : forall a, In a T -> okP d P a;
  c_set : forall l t, P l (Some (ELink t)) -> assoc l d = Some (ELink t) \/ In l done \/ exists n, In n done /\ l = stale_link n;
  c_tidy : tidy d;
  c_done : forall n, In n done -> assoc n d = option_map (fun a => ELink (apth a)) (chosen T n)
}.

(** a change of the visible names [n] or [stale_link n] does not disturb the table *)
Lemma tab_frame T d d' n : valid_name n -> tab T d ->
  (forall k, k <> n -> k <> stale_link n -> assoc k d' = assoc k d) ->
  (live -> assoc (stale_link n) d' = None) -> tab T d'.
Proof.
  intros Hn [A B C D] Hf Hl. pose proof (valid_visible n Hn) as V1. pose proof (stale_visible n Hn) as V2.
  assert (Hap : forall m g, assoc (apath m g) d' = assoc (apath m g) d).
  { intros m g. apply Hf; intros E; symmetry in E; [now apply (visible_not_apath _ _ _ V1) in E|now apply (visible_not_apath _ _ _ V2) in E]. }
  constructor.
  - intros a Ha. unfold apth. rewrite Hap. now apply A.
  - exact B.
  - intros m g Hg. rewrite Hap. now apply C.
  - intros Hlv m Hm. destruct (string_dec m n) as [->|Hne]; [now apply Hl|]. rewrite Hf; [now apply D| |].
    + now apply stale_not_valid.
    + intros E. apply stale_inj in E. contradiction.
Qed.

Lemma tidy_frame d d' n : tidy d -> (forall k, k <> n -> k <> stale_link n -> assoc k d' = assoc k d) ->
  (forall c, assoc n d' <> Some (EData c)) -> (forall c, assoc (stale_link n) d' <> Some (EData c)) -> tidy d'.
Proof.
  intros H Hf H1 H2 k c K. destruct (string_dec k n) as [->|N1]; [now destruct (H1 c)|].
  destruct (string_dec k (stale_link n)) as [->|N2]; [now destruct (H2 c)|]. rewrite Hf in K by assumption. now apply (H k c).
Qed.

(** the links a table asks for are allowed *)
Definition fits (T : table) : Prop :=
  no_stale d0 -> forall n, was n -> In n (map a_name T) -> new n (option_map (fun a => ELink (apth a)) (chosen T n)).

Lemma commit_name_ok T n done : fits T -> ~ In n done -> In n (map a_name T) -> Forall valid_name done ->
  hoare (CI T done) (commit_name T n) (fun _ => CI T (done ++ [n])).
Proof.
  intros Hfit Hnew HnT Hdone. unfold commit_name. apply hoare_get. intros d1.
  apply hoare_pre with (Pre' := fun d P => valid_name n /\ (forall a, In a T -> assoc (apth a) d1 <> None) /\ d1 = d /\ CI T done d P).
  { intros d P [-> H] _. split; [|split; [|auto]].
    - apply in_map_iff in HnT. destruct HnT as (a & <- & Ha). now apply (t_in _ _ (c_tab _ _ _ _ H)).
    - intros a Ha. destruct (t_in _ _ (c_tab _ _ _ _ H) a Ha) as (_ & _ & c & E). congruence. }
  intros s HG (Hn & Hex & Hd & HP). rewrite visit_chosen.
  2:{ intros a Ha. apply filter_In in Ha. now apply Hex. }
  fold (chosen T n).
  pose proof (valid_visible n Hn) as V1. pose proof (stale_visible n Hn) as V2.
  assert (Hsn : stale_link n <> n) by now apply stale_not_valid.
  assert (HsD : ~ In (stale_link n) done).
  { intros X. rewrite Forall_forall in Hdone. now apply (stale_not_valid n (stale_link n) (Hdone _ X)). }
  assert (HsD2 : ~ (exists m, In m done /\ stale_link n = stale_link m)).
  { intros (m & Hm & E). apply stale_inj in E. subst. contradiction. }
  assert (HnD2 : ~ (exists m, In m done /\ n = stale_link m)).
  { intros (m & Hm & E). symmetry in E. now apply (stale_not_valid m n Hn) in E. }
  (* already processed names keep their links *)
  assert (Hframe : forall d d', (forall k, k <> n -> k <> stale_link n -> assoc k d' = assoc k d) ->
     (forall m, In m done -> assoc m d = option_map (fun a => ELink (apth a)) (chosen T m)) ->
     forall m, In m done -> assoc m d' = option_map (fun a => ELink (apth a)) (chosen T m)).
  { intros d d' Hf H m Hm. rewrite Hf; [now apply H| |]; intros ->; [contradiction|].
    rewrite Forall_forall in Hdone. now apply (stale_not_valid n (stale_link n) (Hdone _ Hm)). }
  assert (HapS : forall a, apth a <> stale_link n /\ apth a <> n).
  { intros a. split; intros E; symmetry in E; [now apply (visible_not_apath _ _ _ V2) in E|now apply (visible_not_apath _ _ _ V1) in E]. }
  destruct (chosen T n) as [a|] eqn:Ech.
  - (* an enabled artifact *)
    destruct (chosen_spec _ _ _ Ech) as (Ha & Han & Har).
    fold (apth a).
    assert (Hrepl : hoare (fun d P => CI T done d P /\ (assoc n d = None \/ exists t, assoc n d = Some (ELink t)))
      (run d <- get_dir;;
       match assoc (n ++ ".tmp-link")%string d with
       | Some _ => fail
       | None => run _ <- step (OLink (n ++ ".tmp-link") (apth a));;
                 (fun s => match step (ORename (n ++ ".tmp-link") n) s with
                  | (Ok x, s') => (Ok x, s')
                  | (_, s') => (Err, snd (step (ORemove (n ++ ".tmp-link")) s'))
                  end)
       end) (fun _ => CI T (done ++ [n]))).
    { fold (stale_link n). apply hoare_get. intros d2. destruct (assoc (stale_link n) d2) as [e|] eqn:Es.
      - apply hoare_fail. intros d P [-> [H _]] _ Hl. rewrite (t_live _ _ (c_tab _ _ _ _ H) Hl n Hn) in Es. discriminate.
      - set (J := fun (d : dir) (P : poss) => assoc (stale_link n) d = Some (ELink (apth a)) /\ CI T done (assoc_remove (stale_link n) d) P /\
                 (forall t, P (stale_link n) (Some (ELink t)) -> t = apth a) /\
                 (assoc n d = None \/ exists t, assoc n d = Some (ELink t))).
        apply hoare_bind with (Mid := fun _ d P => exists P0 : poss, (forall k v, P k v <-> P0 k v \/ (k = stale_link n /\ v = Some (ELink (apth a)))) /\
             assoc (stale_link n) d = Some (ELink (apth a)) /\
             CI T done (assoc_remove (stale_link n) d) P0 /\ (assoc n d = None \/ exists t, assoc n d = Some (ELink t))).
        + apply hoare_step. intros d P [Hdd [H Hnd]] (ND & HS & Hcur). subst d2. split.
          * destruct (t_in _ _ (c_tab _ _ _ _ H) a Ha) as (_ & Y & _). subst n. unfold apth. now apply safe_tmplink.
          * exists P. split; [intros k v; reflexivity|]. cbn [app_op]. split; [apply assoc_set_eq|].
            assert (Hsame : forall k, assoc k (assoc_remove (stale_link n) (assoc_set (stale_link n) (ELink (apth a)) d)) = assoc k d).
            { intros k. destruct (string_dec (stale_link n) k) as [<-|Hk]; [rewrite assoc_remove_eq; now symmetry|].
              rewrite assoc_remove_neq by exact Hk. now rewrite assoc_set_neq. }
            split.
            -- destruct H as [A B C D E]. constructor.
               ++ apply (tab_frame T d _ n Hn A); [intros k _ _; apply Hsame|]. intros _. now rewrite Hsame.
               ++ intros b Hb. destruct (B b Hb) as [X|[t X]]; [now left|]. right. exists t. now rewrite Hsame.
               ++ intros l t K. rewrite Hsame. now apply C.
               ++ intros k c K. rewrite Hsame in K. now apply (D k c).
               ++ intros m Hm. rewrite Hsame. now apply E.
            -- now rewrite assoc_set_neq.
        + intros _ s0 HG0 (P0 & HP0 & Hst & HC & Hnd).
          assert (HgP : forall v, P0 (apth a) v -> exists c, v = Some (EData c) /\ good (a_name a) (a_digest a) c).
          { destruct (c_ok _ _ _ _ HC a Ha) as [X|[t X]]; [exact X|]. rewrite Han, assoc_remove_eq in X. discriminate. }
          destruct (t_in _ _ (c_tab _ _ _ _ HC) a Ha) as (Vn & Hh & _).
          assert (HstP : forall t, P0 (stale_link n) (Some (ELink t)) -> False).
          { intros t K. destruct (c_set _ _ _ _ HC _ _ K) as [X|[X|X]]; [|contradiction|contradiction].
            rewrite assoc_remove_eq in X. discriminate. }
          assert (Hsafe : safe (poss_step (ORename (stale_link n) n) (s_dir s0) (PS s0))).
          { rewrite <- Han in *. apply safe_relink with (h := a_digest a); auto.
            - now apply G_now.
            - intros t K. apply HP0 in K. destruct K as [K|[_ K]]; [now apply HstP in K|]. now injection K as ->.
            - intros v K. apply HP0 in K. destruct K as [K|[K _]]; [now apply HgP|]. now destruct (HapS a) as [X _].
            - intros Hns Hw. specialize (Hfit Hns _ Hw HnT). rewrite Ech in Hfit. exact Hfit. }
          destruct (step_G _ s0 HG0 Hsafe) as [HG1 HPS1].
          assert (HcurS : assoc (stale_link n) (s_dir s0) = Some (ELink (apth a))) by exact Hst.
          assert (Hd' : forall k, assoc k (app_op (ORename (stale_link n) n) (s_dir s0)) =
                    if string_dec k n then Some (ELink (apth a)) else assoc k (assoc_remove (stale_link n) (s_dir s0))).
          { intros k. cbn [app_op]. rewrite HcurS. destruct (string_dec k n) as [->|Hk]; [apply assoc_set_eq|].
            rewrite assoc_set_neq; [reflexivity|congruence]. }
          assert (Hpost : CI T (done ++ [n]) (app_op (ORename (stale_link n) n) (s_dir s0)) (poss_step (ORename (stale_link n) n) (s_dir s0) (PS s0))).
          { destruct HC as [A B C D E].
            assert (Hf : forall k, k <> n -> k <> stale_link n -> assoc k (app_op (ORename (stale_link n) n) (s_dir s0)) = assoc k (assoc_remove (stale_link n) (s_dir s0))).
            { intros k N1 N2. rewrite Hd'. now destruct (string_dec k n). }
            assert (HfS : assoc (stale_link n) (app_op (ORename (stale_link n) n) (s_dir s0)) = None).
            { rewrite Hd'. destruct (string_dec (stale_link n) n); [contradiction|]. apply assoc_remove_eq. }
            assert (Hfn : assoc n (app_op (ORename (stale_link n) n) (s_dir s0)) = Some (ELink (apth a))).
            { rewrite Hd'. now destruct (string_dec n n). }
            constructor.
            - apply (tab_frame T _ _ n Hn A Hf). intros _. exact HfS.
            - intros b Hb. destruct (B b Hb) as [X|[t X]].
              + left. intros v K. cbn [poss_step] in K. apply X.
                destruct (HapS b) as [N1 N2]. destruct K as [K|[[K _]|[K _]]]; [|contradiction|contradiction].
                apply HP0 in K. destruct K as [K|[K _]]; [exact K|contradiction].
              + destruct (string_dec (a_name b) n) as [En|En].
                * rewrite En, assoc_remove_eq in X. discriminate.
                * right. exists t. rewrite Hf; [exact X|now apply stale_not_valid|].
                  intros Es2. apply stale_inj in Es2. contradiction.
            - intros l t K. cbn [poss_step] in K.
              destruct (string_dec l n) as [->|N1]; [right; left; apply in_or_app; right; now left|].
              destruct (string_dec l (stale_link n)) as [->|N2]; [right; right; exists n; split; [apply in_or_app; right; now left|reflexivity]|].
              destruct K as [K|[[K _]|[K _]]]; [|contradiction|contradiction].
              apply HP0 in K. destruct K as [K|[K _]]; [|contradiction].
              destruct (C l t K) as [X|[X|(m & Hm & X)]].
              + left. now rewrite Hf.
              + right. left. apply in_or_app. now left.
              + right. right. exists m. split; [apply in_or_app; now left|exact X].
            - apply (tidy_frame (assoc_remove (stale_link n) (s_dir s0)) _ n D Hf); [congruence|congruence].
            - intros m Hm. apply in_app_or in Hm. destruct Hm as [Hm|[<-|[]]].
              + now apply (Hframe _ _ Hf E).
              + rewrite Hfn, Ech. reflexivity. }
          unfold step at 1. destruct (s_env s0) as [|[|] e0] eqn:Ee.
          * split; [exact HG1|]. split; [|auto]. rewrite HPS1. exact Hpost.
          * split; [now apply (G_env _ e0) in HG1|]. split; [|discriminate].
            unfold PS in *. cbn [s_ops s_dir] in *. rewrite HPS1. exact Hpost.
          * (* rename failed *)
            split; [|discriminate].
            assert (HGe : G (mkst (s_dir s0) (s_ops s0) e0)) by now apply G_env.
            assert (Hs2 : safe (poss_step (ORemove (stale_link n)) (s_dir (mkst (s_dir s0) (s_ops s0) e0)) (PS (mkst (s_dir s0) (s_ops s0) e0)))).
            { apply safe_remove; [now apply visible_parse| |now apply G_now]. intros _ [Hw _]. now apply (stale_not_valid n) in Hw. }
            destruct (step_G _ _ HGe Hs2) as [HG2 _]. unfold step. cbn [s_env s_dir s_ops] in *.
            destruct e0 as [|[|] e1]; cbn [snd]; [exact HG2|now apply (G_env _ e1) in HG2|now apply (G_env _ e1) in HG0]. }
    unfold update_symlink. revert s HG Hd HP.
    intros s HG Hd HP.
    match goal with |- match ?m s with _ => _ end => enough (HH : hoare (fun d P => CI T done d P) m (fun _ => CI T (done ++ [n]))) by (apply (HH s HG HP)) end.
    apply hoare_get. intros d2. destruct (assoc n d2) as [[t|c]|] eqn:En.
    + apply hoare_if; intros Et.
      * apply hoare_ret. intros d P [-> [A B C D E]] _. apply String.eqb_eq in Et. subst t. constructor; auto.
        -- intros l t K. destruct (C l t K) as [X|[X|(m & Hm & X)]]; [now left|right; left; apply in_or_app; now left|].
           right. right. exists m. split; [apply in_or_app; now left|exact X].
        -- intros m Hm. apply in_app_or in Hm. destruct Hm as [Hm|[<-|[]]]; [now apply E|]. rewrite En, Ech. reflexivity.
      * apply (hoare_pre _ (fun d P => CI T done d P /\ (assoc n d = None \/ exists t, assoc n d = Some (ELink t)))); [|exact Hrepl].
        intros d P [-> H] _. split; [exact H|]. right. eauto.
    + apply hoare_fail. intros d P [-> H] _ _. destruct (c_tidy _ _ _ _ H n c En) as [X|X].
      * now apply X, visible_parse.
      * rewrite X in V1. discriminate V1.
    + apply (hoare_pre _ (fun d P => CI T done d P /\ (assoc n d = None \/ exists t, assoc n d = Some (ELink t)))); [|exact Hrepl].
      intros d P [-> H] _. split; [exact H|]. now left.
  - (* no enabled artifact *)
    assert (Hmono : forall d P, CI T done d P -> assoc n d = None -> CI T (done ++ [n]) d P).
    { intros d P [A B C D E] En. constructor; auto.
      - intros l t K. destruct (C l t K) as [X|[X|(m & Hm & X)]]; [now left|right; left; apply in_or_app; now left|].
        right. right. exists m. split; [apply in_or_app; now left|exact X].
      - intros m Hm. apply in_app_or in Hm. destruct Hm as [Hm|[<-|[]]]; [now apply E|]. rewrite En, Ech. reflexivity. }
    destruct (assoc n d1) as [e|] eqn:En.
    + match goal with |- match ?m s with _ => _ end => enough (HH : hoare (fun d P => CI T done d P) m (fun _ => CI T (done ++ [n]))) by (apply (HH s HG HP)) end.
      apply hoare_step. intros d P H (ND & HS & Hcur). split; [apply safe_remove; [now apply visible_parse| |exact HS]; intros Hns Hw; specialize (Hfit Hns _ Hw HnT); rewrite Ech in Hfit; exact Hfit|].
      assert (Hf : forall k, k <> n -> k <> stale_link n -> assoc k (app_op (ORemove n) d) = assoc k d).
      { intros k N1 _. cbn [app_op]. apply assoc_remove_neq. congruence. }
      assert (HfS : assoc (stale_link n) (app_op (ORemove n) d) = assoc (stale_link n) d).
      { cbn [app_op]. apply assoc_remove_neq. congruence. }
      assert (Hfn : assoc n (app_op (ORemove n) d) = None) by (cbn [app_op]; apply assoc_remove_eq).
      destruct H as [A B C D E]. constructor.
      * apply (tab_frame T d _ n Hn A Hf). intros Hl. rewrite HfS. now apply (t_live _ _ A).
      * intros b Hb. destruct (B b Hb) as [X|[t X]].
        -- left. intros v [K|[K _]]; [now apply X|]. now destruct (HapS b).
        -- right. exists t. cbn [app_op]. rewrite assoc_remove_neq; [exact X|]. intros E2. symmetry in E2. now apply (stale_not_valid _ _ Hn) in E2.
      * intros l t K. destruct (string_dec l n) as [->|N1]; [right; left; apply in_or_app; right; now left|].
        cbn [poss_step] in K. destruct K as [K|[K _]]; [|contradiction].
        destruct (C l t K) as [X|[X|(m & Hm & X)]].
        -- left. cbn [app_op]. rewrite assoc_remove_neq by congruence. exact X.
        -- right. left. apply in_or_app. now left.
        -- right. right. exists m. split; [apply in_or_app; now left|exact X].
      * cbn [app_op]. now apply tidy_remove.
      * intros m Hm. apply in_app_or in Hm. destruct Hm as [Hm|[<-|[]]].
        -- now apply (Hframe _ _ Hf E).
        -- rewrite Hfn, Ech. reflexivity.
    + split; [exact HG|]. split; [|auto]. apply Hmono; [exact HP|]. rewrite <- Hd. exact En.
Qed.

(** the links match the table *)
Definition linked (T : table) (d : dir) : Prop :=
  forall n, In n (map a_name T) -> assoc n d = option_map (fun a => ELink (apth a)) (chosen T n).

Record I1 (T : table) (d : dir) (P : poss) : Prop := mk_I1 {
  i_tab : tab T d;
  i_ok : forall a, In a T -> okP d P a;
  i_set : settled d P;
  i_tidy : tidy d
}.

Definition durable (d : dir) (P : poss) : Prop := forall k v, P k v -> v = assoc k d.

Lemma commit_ok T : fits T ->
  hoare (I1 T) (commit T) (fun _ d P => I1 T d P /\ refd T P /\ durable d P /\ linked T d).
Proof.
  intros Hfit. unfold commit. apply hoare_bind with (Mid := fun _ => CI T (table_names T)).
  - apply hoare_pre with (Pre' := fun d P => Forall valid_name (table_names T) /\ CI T [] d P).
    { intros d P [A B C D] _. split.
      - apply Forall_forall. intros n Hn. unfold table_names in Hn. apply nodup_In in Hn. apply in_map_iff in Hn.
        destruct Hn as (a & <- & Ha). now apply (t_in _ _ A).
      - constructor; auto. intros n []. }
    intros s HG [HV HP]. revert s HG HP.
    change (hoare (CI T []) (forM (table_names T) (commit_name T)) (fun _ => CI T ([] ++ table_names T))).
    apply (hoare_forM (commit_name T) (CI T) (table_names T) []).
    intros n pre post E. cbn [app]. apply commit_name_ok; [exact Hfit| | |].
    + assert (ND : NoDup (table_names T)) by apply NoDup_nodup. rewrite E in ND. apply NoDup_remove_2 in ND.
      intros X. apply ND, in_or_app. now left.
    + apply (nodup_In string_dec). fold (table_names T). rewrite E. apply in_or_app. right. now left.
    + rewrite E in HV. apply Forall_app in HV. tauto.
  - intros _. apply hoare_step. intros d P [A B C D E] HF. split; [now apply safe_syncfs|].
    destruct HF as (ND & HS & Hcur). cbn [app_op poss_step]. unfold on_disk.
    assert (HL : linked T d).
    { intros n Hn. apply E. unfold table_names. now apply nodup_In. }
    split; [constructor|split; [|split]].
    + exact A.
    + intros a Ha. destruct (B a Ha) as [X|X]; [left|now right]. intros v ->. apply X, Hcur.
    + intros l t K. now symmetry.
    + exact D.
    + intros a Ha K. rewrite (HL (a_name a)) in K by now apply in_map.
      destruct (chosen T (a_name a)) as [b|] eqn:Eb; [|discriminate].
      cbn [option_map] in K. assert (K' : apth a = apth b) by congruence.
      destruct (chosen_spec _ _ _ Eb) as (Hb & _ & Hr).
      apply (apth_inj _ _ _ _ A Ha Hb) in K'. now subst.
    + intros k v K. exact K.
    + exact HL.
Qed.

Lemma tab_keys T T' d : Permutation (map akey T') (map akey T) -> tab T d -> tab T' d.
Proof.
  intros HP [A B C D]. constructor.
  - intros a Ha. assert (K : In (akey a) (map akey T)) by (eapply Permutation_in; [exact HP|now apply in_map]).
    apply in_map_iff in K. destruct K as (b & E & Hb). unfold akey in E. injection E as E1 E2.
    pose proof (A b Hb) as X. unfold apth in *. now rewrite E1, E2 in X.
  - now apply (Permutation_NoDup (Permutation_sym HP)).
  - intros n g Hg K. apply (Permutation_in _ (Permutation_sym HP)). now apply C.
  - exact D.
Qed.

Lemma I1_keys T T' d P : Permutation (map akey T') (map akey T) -> I1 T d P -> I1 T' d P.
Proof.
  intros HP [A B C D]. constructor; auto; [now apply (tab_keys T)|].
  intros a Ha. assert (K : In (akey a) (map akey T)) by (eapply Permutation_in; [exact HP|now apply in_map]).
  apply in_map_iff in K. destruct K as (b & E & Hb). unfold akey in E. injection E as E1 E2.
  destruct (B b Hb) as [X|[t X]].
  - left. unfold goodP, apth in *. now rewrite E1, E2 in X.
  - right. exists t. now rewrite <- E1.
Qed.

(** ** Installing one artifact *)
Lemma find_none_key T n g : art_find T n g = None -> ~ In (n, g) (map akey T).
Proof.
  intros H K. apply in_map_iff in K. destruct K as (a & E & Ha). unfold akey in E. injection E as <- <-.
  apply (find_none _ _ H) in Ha. unfold same_art in Ha. rewrite !String.eqb_refl in Ha. discriminate.
Qed.

Lemma find_some_key T n g a : art_find T n g = Some a -> In a T /\ akey a = (n, g).
Proof.
  intros H. apply find_some in H. destruct H as [H1 H2]. split; [exact H1|]. unfold same_art in H2.
  apply andb_true_iff in H2. destruct H2 as [X Y]. apply String.eqb_eq in X, Y. unfold akey. now subst.
Qed.

Lemma install_ok w i T : image_good good i ->
  hoare (fun d P => I1 T d P /\ durable d P /\ ~ In (i_name i, i_digest i) (map akey T)) (art_install w i)
        (fun _ => I1 (T ++ [mkart (i_name i) (i_digest i) 0])).
Proof.
  intros (Vn & Hh & Hgood). set (n := i_name i) in *. set (g := i_digest i) in *. set (p := apath n g). set (t := atmp n g).
  assert (Ept : parse_artifact t = None) by now apply parse_atmp.
  assert (Epp : parse_artifact p = Some (n, g)) by now apply parse_apath.
  assert (Hpt : p <> t) by congruence.
  assert (Hap : forall m h, hex_digest h -> apath m h <> t).
  { intros m h Hm E. rewrite <- E, (parse_apath m h Hm) in Ept. discriminate. }
  assert (Hst : forall m, valid_name m -> stale_link m <> t /\ stale_link m <> p).
  { intros m Hm. pose proof (stale_visible m Hm) as V. split; [now apply visible_not_atmp|now apply visible_not_apath]. }
  unfold art_install. fold n g p t. apply hoare_get. intros d1.
  (* nothing is there *)
  apply hoare_pre with (Pre' := fun d P => (assoc p d1 = None /\ assoc t d1 = None) /\ d1 = d /\
      I1 T d P /\ durable d P /\ ~ In (n, g) (map akey T)).
  { intros d P [-> (H & HD & Hnew)] (ND & HS & Hcur). split; [|auto].
    destruct H as [A B C D]. split.
    - destruct (assoc p d1) as [e|] eqn:E; [|reflexivity]. exfalso. apply Hnew, (t_all _ _ A n g Hh).
      fold p. congruence.
    - destruct (assoc t d1) as [[x|c]|] eqn:E; [| |reflexivity]; exfalso.
      + apply (s_tmp _ HS n g x). fold t. rewrite <- E. apply Hcur.
      + destruct (D t c E) as [X|X]; [now apply X|]. unfold t, atmp, apath in X. discriminate X. }
  intros s HG ((N1 & N2) & Hd & HI). rewrite N1, N2. cbn [orb]. subst d1. revert s HG N1 N2 HI.
  enough (HH : hoare (fun d P => (assoc p d = None /\ assoc t d = None) /\ I1 T d P /\ durable d P /\ ~ In (n, g) (map akey T))
    (run _ <- forM (w_cp w t) (fun c : content => step (OData t c));;
     run _ <- step (OData t (i_content i));; run _ <- step OSyncfs;; run _ <- step (ORename t p);; step OSyncDir)
    (fun _ => I1 (T ++ [mkart n g 0]))).
  { intros s HG N1 N2 HI. apply (HH s HG). auto. }
  (* filling the temporary entry *)
  set (J := fun (d : dir) (P : poss) => assoc p d = None /\ (forall x, assoc t d <> Some (ELink x)) /\
      (forall k, k <> t -> assoc k d = assoc k d) /\
      tab T d /\ (forall a, In a T -> okP d P a) /\ settled d P /\
      (forall k c, k <> t -> assoc k d = Some (EData c) -> parse_artifact k <> None \/ k = ".rauc-cfs-store") /\
      ~ In (n, g) (map akey T)).
  assert (HJ : forall c d P, J d P -> safe P -> safe (poss_step (OData t c) d P) /\ J (app_op (OData t c) d) (poss_step (OData t c) d P)).
  { intros c d P (A & B & _ & C & D & E & F & Hnew) HS. split; [apply safe_data; auto; left; apply atmp_hidden|].
    assert (Hf : forall k, k <> t -> assoc k (app_op (OData t c) d) = assoc k d).
    { intros k Hk. cbn [app_op]. apply assoc_set_neq. congruence. }
    assert (Ht : assoc t (app_op (OData t c) d) = Some (EData c)) by (cbn [app_op]; apply assoc_set_eq).
    unfold J. split; [now rewrite Hf|]. split; [congruence|]. split; [auto|]. split; [|split; [|split; [|split; [|exact Hnew]]]].
    - destruct C as [C1 C2 C3 C4]. constructor; auto.
      + intros a Ha. destruct (C1 a Ha) as (X & Y & Z). split; [exact X|]. split; [exact Y|]. unfold apth in *. now rewrite Hf by now apply Hap.
      + intros m h Hm. rewrite Hf by now apply Hap. now apply C3.
      + intros Hl m Hm. rewrite Hf by now apply Hst. now apply C4.
    - intros a Ha. destruct (C : tab T d) as [C1 _ _ _]. destruct (C1 a Ha) as (X & Y & _). destruct (D a Ha) as [Z|[x Z]].
      + left. intros v [K|[K _]]; [now apply Z|]. exfalso. now apply (Hap _ _ Y) in K.
      + right. exists x. now rewrite Hf by now apply Hst.
    - intros l x [K|[_ K]]; [|discriminate]. rewrite Hf; [now apply E|]. intros ->. apply E in K. now apply (B x).
    - intros k c' Hk. rewrite Hf by exact Hk. now apply F. }
  apply hoare_bind with (Mid := fun _ => J).
  { apply hoare_pre with (Pre' := J).
    - intros d P ((N1 & N2) & [A B C D] & _ & Hnew) _. unfold J. split; [exact N1|]. split; [congruence|].
      split; [auto|]. split; [exact A|]. split; [exact B|]. split; [exact C|]. split; [|exact Hnew]. intros k c _. now apply D.
    - apply (hoare_forM (fun c : content => step (OData t c)) (fun _ => J) (w_cp w t) []).
      intros c pre post _. apply hoare_step. intros d P H (_ & HS & _). now apply HJ. }
  intros _. apply hoare_bind with (Mid := fun _ d P => J d P /\ assoc t d = Some (EData (i_content i))).
  { apply hoare_step. intros d P H (_ & HS & _). destruct (HJ (i_content i) d P H HS) as [X Y]. split; [exact X|]. split; [exact Y|].
    cbn [app_op]. apply assoc_set_eq. }
  intros _. apply hoare_bind with (Mid := fun _ d P => J d P /\ assoc t d = Some (EData (i_content i)) /\ durable d P).
  { apply hoare_step. intros d P [H Ht] HF. split; [now apply safe_syncfs|]. destruct HF as (_ & HS & Hcur).
    cbn [app_op poss_step]. unfold on_disk. split; [|split; [exact Ht|intros k v; auto]].
    destruct H as (A & B & X & C & D & E & F & Hnew). unfold J. repeat (split; [assumption|]).
    split; [|split; [|split; [exact F|exact Hnew]]].
    - intros a Ha. destruct (D a Ha) as [Z|Z]; [left|now right]. intros v ->. apply Z, Hcur.
    - intros l x K. now symmetry. }
  intros _.
  set (Hno := fun P : poss => ~ P n (Some (ELink p))).
  apply hoare_bind with (Mid := fun _ d P => exists dm Pm, J dm Pm /\ durable dm Pm /\ assoc t dm = Some (EData (i_content i)) /\
      Hno Pm /\ d = app_op (ORename t p) dm /\ (forall k v, P k v <-> poss_step (ORename t p) dm Pm k v)).
  { apply hoare_step. intros d P (H & Ht & HD) (ND & HS & Hcur).
    assert (HN : Hno P).
    { intros K. destruct (s_good _ HS n g Vn Hh K None) as (c & E & _); [|discriminate].
      destruct H as (A & _). unfold p in A. rewrite <- A. apply Hcur. }
    split.
    - apply safe_publish; auto. intros v K _. apply HD in K. fold t in K. rewrite Ht in K. eauto.
    - exists d, P. split; [exact H|]. split; [exact HD|]. split; [exact Ht|]. split; [exact HN|]. split; [reflexivity|]. intros; reflexivity. }
  intros _. apply hoare_step. intros d P (dm & Pm & HJm & HDm & Htm & HNm & Hdd & HPP) (ND & HS & Hcur).
  split; [apply (safe_sub P); [now apply syncdir_sub|exact HS]|].
  destruct HJm as (A & B & _ & C & D & E & F & Hnew).
  assert (Hd' : forall k, assoc k d = if string_dec k p then Some (EData (i_content i)) else if string_dec k t then None else assoc k dm).
  { intros k. rewrite Hdd. cbn [app_op]. rewrite Htm. destruct (string_dec k p) as [->|H1]; [apply assoc_set_eq|].
    rewrite assoc_set_neq by congruence. destruct (string_dec k t) as [->|H2]; [apply assoc_remove_eq|]. apply assoc_remove_neq. congruence. }
  assert (Hf : forall k, k <> p -> k <> t -> assoc k d = assoc k dm).
  { intros k H1 H2. rewrite Hd'. destruct (string_dec k p); [contradiction|]. destruct (string_dec k t); [contradiction|reflexivity]. }
  assert (Hpv : assoc p d = Some (EData (i_content i))) by (rewrite Hd'; now destruct (string_dec p p)).
  assert (Htv : assoc t d = None).
  { rewrite Hd'. destruct (string_dec t p); [congruence|]. now destruct (string_dec t t). }
  assert (HPf : forall k v, k <> p -> k <> t -> poss_step OSyncDir d P k v -> Pm k v).
  { intros k v H1 H2 K. apply syncdir_sub in K; [|exact Hcur]. apply HPP in K. cbn [poss_step] in K.
    destruct K as [K|[[K _]|[K _]]]; [exact K|contradiction|contradiction]. }
  assert (HPp : forall v, poss_step OSyncDir d P p v -> v = Some (EData (i_content i))).
  { intros v K. pose proof K as K2. cbn [poss_step] in K2. rewrite Hpv in K2. destruct K2 as [_ [c Ec]].
    apply syncdir_sub in K; [|exact Hcur]. apply HPP in K. cbn [poss_step] in K.
    destruct K as [K|[[K _]|[_ [K _]]]].
    - apply HDm in K. rewrite A in K. congruence.
    - contradiction.
    - apply HDm in K. now rewrite Htm in K. }
  assert (HPt : forall x, ~ poss_step OSyncDir d P t (Some (ELink x))).
  { intros x K. cbn [poss_step] in K. rewrite Htv in K. discriminate. }
  cbn [app_op].
  constructor.
  - destruct C as [C1 C2 C3 C4]. constructor.
    + intros a Ha. apply in_app_or in Ha. destruct Ha as [Ha|[<-|[]]].
      * destruct (C1 a Ha) as (X & Y & c & Z). split; [exact X|]. split; [exact Y|]. unfold apth in *. exists c.
        rewrite Hf; [exact Z| |now apply Hap]. intros K. fold p in K. rewrite K in Z. rewrite A in Z. discriminate.
      * cbn [a_name a_digest apth]. split; [exact Vn|]. split; [exact Hh|]. exists (i_content i). exact Hpv.
    + rewrite map_app. cbn [map]. apply (Permutation_NoDup (l := (n, g) :: map akey T)); [apply Permutation_cons_append|].
      constructor; [exact Hnew|exact C2].
    + intros m h Hm K. rewrite map_app, in_app_iff. cbn [map In].
      destruct (string_dec (apath m h) p) as [Ep|Ep].
      * apply apath_inj in Ep; auto. destruct Ep as [-> ->]. right. now left.
      * left. apply (C3 m h Hm). rewrite <- Hf; [exact K|exact Ep|now apply Hap].
    + intros Hl m Hm. rewrite Hf; [now apply C4| |]; apply Hst; exact Hm.
  - intros a Ha. apply in_app_or in Ha. destruct Ha as [Ha|[<-|[]]].
    + destruct (t_in _ _ C a Ha) as (X & Y & c & Z). destruct (D a Ha) as [W|[x W]].
      * left. intros v K. apply W. apply HPf; [| |exact K].
        -- intros K2. rewrite K2, A in Z. discriminate.
        -- now apply Hap.
      * right. exists x. rewrite Hf; [exact W| |]; apply Hst; exact X.
    + left. intros v K. apply HPp in K. exists (i_content i). auto.
  - intros l x K. destruct (string_dec l p) as [->|H1]; [apply HPp in K; discriminate|].
    destruct (string_dec l t) as [->|H2]; [now apply HPt in K|].
    apply HPf in K; auto. rewrite Hf by assumption. now apply E.
  - intros k c K. destruct (string_dec k p) as [->|H1]; [left; congruence|].
    destruct (string_dec k t) as [->|H2]; [congruence|]. rewrite Hf in K by assumption. now apply (F k c).
Qed.

(** ** One image plan *)
Lemma forget_keys keep T : map akey (forget_old keep T) = map akey T.
Proof.
  unfold forget_old. rewrite map_map. apply map_ext. intros a. now destruct (existsb (String.eqb (a_name a)) keep).
Qed.

Lemma activate_keys n g T : map akey (activate n g T) = map akey T.
Proof.
  unfold activate. rewrite map_map. apply map_ext. intros a.
  destruct (String.eqb (a_name a) n); [destruct (String.eqb (a_digest a) g)|]; reflexivity.
Qed.

(** what the tables of a run look like *)
Record cov (T : table) : Prop := mk_cov {
  v_from : no_stale d0 -> forall a, In a T -> a_refs a <> 0 ->
             points d0 (a_name a) (a_name a) (a_digest a) \/ exists i, In i allimgs /\ i_name i = a_name a /\ i_digest i = a_digest a;
  v_has : no_stale d0 -> forall n, was n -> In n keepN -> exists a, In a T /\ a_name a = n /\ a_refs a <> 0
}.

Lemma cov_fits T : cov T -> fits T.
Proof.
  intros [A B] Hns n Hw Hn. destruct (chosen T n) as [a|] eqn:E; cbn [option_map].
  - destruct (chosen_spec _ _ _ E) as (Ha & <- & Hr). right. exists (a_digest a). split; [reflexivity|]. now apply A.
  - left. split; [reflexivity|]. intros Hk. destruct (B Hns n Hw Hk) as (a & Ha & Han & Hr).
    unfold chosen in E. apply (find_none _ _) with (x := a) in E.
    + unfold enabled in E. apply negb_false_iff, Nat.eqb_eq in E. contradiction.
    + apply filter_In. split; [exact Ha|]. now apply String.eqb_eq.
Qed.

Lemma cov_perm T T' : Permutation T' T -> cov T -> cov T'.
Proof.
  intros HP [A B]. constructor.
  - intros Hns a Ha. apply (A Hns). now apply (Permutation_in _ HP).
  - intros Hns n Hw Hk. destruct (B Hns n Hw Hk) as (a & Ha & X). exists a. split; [|exact X]. now apply (Permutation_in _ (Permutation_sym HP)).
Qed.

Lemma cov_forget T : cov T -> cov (forget_old keepN T).
Proof.
  intros [A B]. constructor.
  - intros Hns b Hb Hr. unfold forget_old in Hb. apply in_map_iff in Hb. destruct Hb as (a & <- & Ha).
    destruct (existsb (String.eqb (a_name a)) keepN); [now apply A|cbn in Hr; congruence].
  - intros Hns n Hw Hk. destruct (B Hns n Hw Hk) as (a & Ha & <- & Hr). exists a. split; [|auto].
    unfold forget_old. apply in_map_iff. exists a. split; [|exact Ha].
    destruct (existsb (String.eqb (a_name a)) keepN) eqn:E; [reflexivity|].
    exfalso. rewrite <- not_true_iff_false in E. apply E, existsb_exists. exists (a_name a). split; [exact Hk|apply String.eqb_refl].
Qed.

Lemma cov_snoc T n g : cov T -> cov (T ++ [mkart n g 0]).
Proof.
  intros [A B]. constructor.
  - intros Hns a Ha Hr. apply in_app_or in Ha. destruct Ha as [Ha|[<-|[]]]; [now apply A|cbn in Hr; congruence].
  - intros Hns m Hw Hk. destruct (B Hns m Hw Hk) as (a & Ha & X). exists a. split; [apply in_or_app; now left|exact X].
Qed.

Lemma cov_activate T i : In i allimgs -> In (i_name i, i_digest i) (map akey T) -> cov T -> cov (activate (i_name i) (i_digest i) T).
Proof.
  intros Hi Hin [A B]. constructor.
  - intros Hns b Hb Hr. unfold activate in Hb. apply in_map_iff in Hb. destruct Hb as (a & <- & Ha).
    destruct (String.eqb_spec (a_name a) (i_name i)) as [E1|E1]; [|now apply A].
    destruct (String.eqb_spec (a_digest a) (i_digest i)) as [E2|E2]; cbn [a_name a_digest a_refs] in *.
    + right. exists i. auto.
    + apply A; auto. intros E. now rewrite E in Hr.
  - intros Hns n Hw Hk. unfold activate. destruct (string_dec n (i_name i)) as [->|Hn].
    + apply in_map_iff in Hin. destruct Hin as (a & E & Ha). unfold akey in E. injection E as E1 E2.
      exists (mkart (a_name a) (a_digest a) (Nat.max 1 (a_refs a))). split; [|split; [exact E1|cbn [a_refs]; destruct (a_refs a); discriminate]].
      apply in_map_iff. exists a. split; [|exact Ha]. now rewrite E1, E2, !String.eqb_refl.
    + destruct (B Hns n Hw Hk) as (a & Ha & <- & Hr). exists a. split; [|auto]. apply in_map_iff. exists a. split; [|exact Ha].
      apply String.eqb_neq in Hn. now rewrite Hn.
Qed.

Section plan.
Variable w : world.
Variable ord : order.
Variable ord_perm : forall T, Permutation (ord T) T.

(** the table after a plan, given the table before *)
Definition plan_table (keep : list string) (T : table) (i : image) : table :=
  let T1 := forget_old keep T in
  match art_find T1 (i_name i) (i_digest i) with
  | Some _ => activate (i_name i) (i_digest i) T1
  | None => activate (i_name i) (i_digest i) (ord (T1 ++ [mkart (i_name i) (i_digest i) 0]))
  end.

Lemma handle_plan_ok T i : image_good good i -> In i allimgs -> cov T ->
  hoare (I1 T) (handle_plan w ord keepN T i)
        (fun T' d P => T' = plan_table keepN T i /\ I1 T' d P /\ refd T' P /\ durable d P /\ linked T' d).
Proof.
  intros Hi Hin Hcov. unfold handle_plan, remove_old, plan_table.
  set (T1 := forget_old keepN T).
  assert (Hc1 : cov T1) by now apply cov_forget.
  apply hoare_bind with (Mid := fun T' d P => T' = T1 /\ I1 T1 d P /\ durable d P).
  { apply hoare_bind with (Mid := fun _ d P => I1 T1 d P /\ durable d P).
    - apply hoare_pre with (Pre' := I1 T1).
      + intros d P H _. apply (I1_keys T); [|exact H]. unfold T1. now rewrite forget_keys.
      + apply hoare_post with (1 := commit_ok T1 (cov_fits _ Hc1)). intros _ d P (A & B & C & D) _. auto.
    - intros _. apply hoare_ret. auto. }
  intros T1'. intros s HG [-> HP]. revert s HG HP.
  match goal with |- forall s, _ -> _ -> match ?m s with _ => _ end =>
    enough (HH : hoare (fun d P => I1 T1 d P /\ durable d P) m (fun T' d P => T' = match art_find T1 (i_name i) (i_digest i) with
       | Some _ => activate (i_name i) (i_digest i) T1
       | None => activate (i_name i) (i_digest i) (ord (T1 ++ [mkart (i_name i) (i_digest i) 0])) end /\ I1 T' d P /\ refd T' P /\ durable d P /\ linked T' d)) by exact HH end.
  destruct (art_find T1 (i_name i) (i_digest i)) as [a|] eqn:Ef.
  - set (T2 := activate (i_name i) (i_digest i) T1).
    apply hoare_bind with (Mid := fun _ d P => I1 T2 d P /\ refd T2 P /\ durable d P /\ linked T2 d).
    + apply hoare_pre with (Pre' := I1 T2); [|apply commit_ok, cov_fits, cov_activate; auto; apply find_some_key in Ef; destruct Ef as [Ef <-]; now apply in_map].
      intros d P [H _] _. apply (I1_keys T1); [|exact H]. unfold T2. now rewrite activate_keys.
    + intros _. apply hoare_ret. intros d P (A & B & C & D) _. auto 10.
  - pose proof (find_none_key _ _ _ Ef) as Hnew.
    apply hoare_get. intros d1.
    set (T2 := T1 ++ [mkart (i_name i) (i_digest i) 0]).
    apply hoare_bind with (Mid := fun T' d P => T' = T2 /\ I1 T1 d P /\ durable d P /\ ~ In (i_name i, i_digest i) (map akey T1)).
    + intros s HG (Hd & HI & HD). pose proof (G_now s HG) as HS. pose proof (G_cur s HG) as Hcur.
      unfold repo_insert. destruct Hi as (Vn & Hh & _).
      assert (L1 : is_link d1 (apath (i_name i) (i_digest i)) = false).
      { unfold is_link. destruct (assoc (apath (i_name i) (i_digest i)) d1) as [[t|c]|] eqn:E; auto. exfalso.
        destruct (s_art _ HS (i_name i) (i_digest i) (Some (ELink t)) Hh) as (_ & c & X); [|discriminate|discriminate].
        rewrite <- E, <- Hd. apply Hcur. }
      assert (L2 : is_link d1 (atmp (i_name i) (i_digest i)) = false).
      { unfold is_link. destruct (assoc (atmp (i_name i) (i_digest i)) d1) as [[t|c]|] eqn:E; auto. exfalso.
        apply (s_tmp _ HS (i_name i) (i_digest i) t). rewrite <- E, <- Hd. apply Hcur. }
      rewrite L1, L2, Ef. cbn [orb]. split; [exact HG|]. split; [|auto]. rewrite Hd. auto.
    + intros T2'. intros s HG [-> HP]. revert s HG HP.
      match goal with |- forall s, _ -> _ -> match ?m s with _ => _ end =>
        enough (HH : hoare (fun d P => I1 T1 d P /\ durable d P /\ ~ In (i_name i, i_digest i) (map akey T1)) m
           (fun T' d P => T' = activate (i_name i) (i_digest i) (ord T2) /\ I1 T' d P /\ refd T' P /\ durable d P /\ linked T' d)) by exact HH end.
      set (T3 := activate (i_name i) (i_digest i) (ord T2)).
      apply hoare_bind with (Mid := fun _ => I1 T2); [now apply install_ok|].
      intros _. apply hoare_bind with (Mid := fun _ d P => I1 T3 d P /\ refd T3 P /\ durable d P /\ linked T3 d).
      * apply hoare_pre with (Pre' := I1 T3); [|apply commit_ok, cov_fits, cov_activate; auto; [|now apply (cov_perm T2), cov_snoc]].
        2:{ apply (Permutation_in (l := map akey T2)); [apply Permutation_map, Permutation_sym, ord_perm|]. unfold T2. rewrite map_app. apply in_or_app. right. now left. }
        intros d P H _. apply (I1_keys T2); [|exact H]. unfold T3. rewrite activate_keys.
        apply Permutation_map, ord_perm.
      * intros _. apply hoare_ret. intros d P (A & B & C & D) _. auto 10.
Qed.

Lemma durable_ldur d P : durable d P -> ldur d P.
Proof. intros H l t v E K. apply H in K. congruence. Qed.

Lemma cov_plan T i : In i allimgs -> cov T -> cov (plan_table keepN T i).
Proof.
  intros Hi HC. unfold plan_table. set (T1 := forget_old keepN T). assert (Hc1 : cov T1) by now apply cov_forget.
  destruct (art_find T1 (i_name i) (i_digest i)) as [a|] eqn:E.
  - apply cov_activate; auto. apply find_some_key in E. destruct E as [E <-]. now apply in_map.
  - apply cov_activate; auto; [|eapply cov_perm; [apply ord_perm|now apply cov_snoc]].
    apply (Permutation_in (l := map akey (T1 ++ [mkart (i_name i) (i_digest i) 0]))); [apply Permutation_map, Permutation_sym, ord_perm|].
    rewrite map_app. apply in_or_app. right. now left.
Qed.

Lemma handle_plans_ok imgs : Forall (image_good good) imgs -> incl imgs allimgs -> forall T, cov T ->
  hoare (fun d P => I1 T d P /\ refd T P /\ ldur d P) (handle_plans w ord keepN T imgs)
        (fun T' d P => T' = fold_left (plan_table keepN) imgs T /\ I1 T' d P /\ refd T' P /\ ldur d P /\ (imgs <> [] -> linked T' d)).
Proof.
  induction imgs as [|i imgs IH]; intros HF HI T HC; cbn [handle_plans fold_left].
  - apply hoare_ret. intros d P (A & B & C) _. split; [reflexivity|]. split; [exact A|]. split; [exact B|]. split; [exact C|]. congruence.
  - inversion HF as [|? ? Hi HF']; subst.
    apply hoare_bind with (Mid := fun T' d P => T' = plan_table keepN T i /\ I1 T' d P /\ refd T' P /\ ldur d P /\ linked T' d).
    + apply hoare_pre with (Pre' := I1 T); [tauto|].
      apply hoare_post with (1 := handle_plan_ok T i Hi (HI i (or_introl eq_refl)) HC). intros T' d P (A & B & C & E & D) _. apply durable_ldur in E. auto 10.
    + intros T1. intros s HG [-> HP]. revert s HG HP.
      match goal with |- forall s, _ -> _ -> match ?m s with _ => _ end =>
        enough (HH : hoare (fun d P => I1 (plan_table keepN T i) d P /\ refd (plan_table keepN T i) P /\ ldur d P /\ linked (plan_table keepN T i) d) m
          (fun T' d P => T' = fold_left (plan_table keepN) imgs (plan_table keepN T i) /\ I1 T' d P /\ refd T' P /\ ldur d P /\ (i :: imgs <> [] -> linked T' d))) by exact HH end.
      destruct imgs as [|j imgs].
      * apply hoare_ret. cbn [fold_left]. intros d P (A & B & C & D) _. auto 10.
      * apply hoare_pre with (Pre' := fun d P => I1 (plan_table keepN T i) d P /\ refd (plan_table keepN T i) P /\ ldur d P); [tauto|].
        apply hoare_post with (1 := IH HF' (fun x Hx => HI x (or_intror Hx)) (plan_table keepN T i) (cov_plan T i (HI i (or_introl eq_refl)) HC)). intros T' d P (A & B & C & E & D) _.
        split; [exact A|]. split; [exact B|]. split; [exact C|]. split; [exact E|]. intros _. apply D. discriminate.
Qed.
End plan.
End crash.
