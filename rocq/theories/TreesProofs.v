From Verif Require Import Base BaseLemmas Trees TreesSpec.
Open Scope list_scope.

Lemma path_eqb_spec p : forall q, path_eqb p q = true <-> p = q.
Proof.
  induction p as [|a p IH]; intros [|b q]; cbn; try (split; congruence).
  rewrite andb_true_iff, String.eqb_eq, IH. split; [intros [-> ->]; reflexivity|intros H; injection H; auto].
Qed.
Lemma path_eqb_refl p : path_eqb p p = true.
Proof. now apply path_eqb_spec. Qed.

Lemma lookup_remove f p q : lookup (remove f p) q = if path_eqb p q then None else lookup f q.
Proof.
  induction f as [|[r n] f IH]; cbn.
  - destruct (path_eqb p q); reflexivity.
  - fold (remove f p) in *. destruct (path_eqb r p) eqn:E; cbn; fold (remove f p).
    + rewrite IH. apply path_eqb_spec in E. subst r. destruct (path_eqb p q); reflexivity.
    + destruct (path_eqb r q) eqn:E2.
      * destruct (path_eqb p q) eqn:E3; [|reflexivity]. apply path_eqb_spec in E2, E3. subst. rewrite path_eqb_refl in E. discriminate.
      * exact IH.
Qed.
Lemma lookup_in f p n : lookup f p = Some n -> In p (map fst f).
Proof.
  induction f as [|[q m] f IH]; [discriminate|]. cbn. destruct (path_eqb q p) eqn:E.
  - apply path_eqb_spec in E. now left.
  - intros H. right. now apply IH.
Qed.
Lemma in_lookup f p : In p (map fst f) -> exists n, lookup f p = Some n.
Proof.
  induction f as [|[q m] f IH]; [intros []|]. cbn. intros [->|H].
  - rewrite path_eqb_refl. eauto.
  - destruct (path_eqb q p); eauto.
Qed.

Lemma child_of_spec p : forall q c, child_of p q = Some c <-> q = p ++ [c].
Proof.
  induction p as [|a p IH]; intros q c; cbn.
  - destruct q as [|b [|d q]]; split; intros H; try discriminate; [injection H as ->; reflexivity|injection H as ->; reflexivity].
  - destruct q as [|b q]; [split; discriminate|]. destruct (String.eqb_spec a b) as [->|N].
    + rewrite IH. split; [intros ->; reflexivity|intros H; injection H; auto].
    + split; [discriminate|intros H; injection H; congruence].
Qed.
Lemma children_spec f p c : In c (children f p) <-> exists n, lookup f (p ++ [c]) = Some n.
Proof.
  unfold children. rewrite in_flat_map. split.
  - intros ([q n] & Hin & H). cbn [fst] in H. destruct (child_of p q) as [d|] eqn:E; [|destruct H]. destruct H as [->|[]].
    apply child_of_spec in E. subst q. apply in_lookup. apply in_map_iff. exists (p ++ [c], n). auto.
  - intros (n & H). apply lookup_in in H. apply in_map_iff in H as ([q m] & E & Hin). cbn in E. subst q.
    exists (p ++ [c], m). split; [exact Hin|]. cbn. replace (child_of p (p ++ [c])) with (Some c) by (symmetry; now apply child_of_spec). now left.
Qed.
Lemma children_nodup f p : NoDup (map fst f) -> NoDup (children f p).
Proof.
  induction f as [|[q n] f IH]; [constructor|]. cbn. intros H. inversion H as [|? ? N U]; subst.
  destruct (child_of p q) as [c|] eqn:E; [|now apply IH]. cbn. constructor; [|now apply IH].
  intros X. apply children_spec in X as (m & X). apply lookup_in in X. apply child_of_spec in E. subst q. contradiction.
Qed.

(** paths without links are themselves *)
Lemma follow_real f k : forall rest done, (forall a b, rest = a ++ b -> a <> [] -> b <> [] -> exists d, lookup f (done ++ a) = Some (mkNode KDir d)) ->
  follow f k done rest = Some (done ++ rest).
Proof.
  intros rest. induction rest as [|c r IH]; intros done H.
  - rewrite app_nil_r. destruct k; reflexivity.
  - destruct r as [|c2 r]; [destruct k; reflexivity|].
    destruct (H [c] (c2 :: r) eq_refl ltac:(discriminate) ltac:(discriminate)) as (d & E).
    replace (follow f k done (c :: c2 :: r)) with (follow f k (done ++ [c]) (c2 :: r)).
    + rewrite IH; [now rewrite <- app_assoc|]. intros a b E2 Ha Hb. rewrite <- app_assoc. apply (H (c :: a) b); [cbn; now rewrite E2|discriminate|exact Hb].
    + destruct k; cbn [follow]; rewrite E; reflexivity.
Qed.
Lemma resolve_real f p : real_dirs f p -> resolve f p = Some p.
Proof. intros H. unfold resolve. rewrite follow_real; [reflexivity|]. intros a b E Ha Hb. exact (H a b E Ha Hb). Qed.

Lemma real_child f p c d : real_dirs f p -> lookup f p = Some (mkNode KDir d) \/ p = [] -> real_dirs f (p ++ [c]).
Proof.
  intros R L a b E Ha Hb. destruct (exists_last Hb) as (b' & x & ->). rewrite app_assoc in E. apply app_inj_tail in E as [E _].
  destruct b' as [|y b'].
  - rewrite app_nil_r in E. subst a. destruct L as [L| ->]; [eauto|contradiction].
  - apply (R a (y :: b') E Ha). discriminate.
Qed.

Lemma below_refl p : below p p.
Proof. exists []. now rewrite app_nil_r. Qed.
Lemma below_child p c q : below (p ++ [c]) q -> below p q.
Proof. intros (r & ->). exists (c :: r). now rewrite <- app_assoc. Qed.
(** what is above [p] is not below it *)
Lemma above_not_below a b : b <> [] -> ~ below (a ++ b) a.
Proof.
  intros Hb (r & E). rewrite <- app_assoc in E. assert (X : List.length a = List.length (a ++ b ++ r)) by (rewrite <- E; reflexivity).
  rewrite !app_length in X. destruct b; [contradiction|]. cbn in X. lia.
Qed.

(** ** changes below [p] only, and only removals *)
Definition inside (p : path) (f f' : fs) : Prop :=
  (forall q, ~ below p q -> lookup f' q = lookup f q) /\
  (forall q, lookup f' q = lookup f q \/ lookup f' q = None).
Lemma inside_refl p f : inside p f f.
Proof. split; auto. Qed.
Lemma inside_trans p f g h : inside p f g -> inside p g h -> inside p f h.
Proof.
  intros [A1 A2] [B1 B2]. split.
  - intros q H. rewrite B1, A1 by exact H. reflexivity.
  - intros q. destruct (B2 q) as [E|E]; [rewrite E; apply A2|now right].
Qed.
Lemma inside_child p c f g : inside (p ++ [c]) f g -> inside p f g.
Proof. intros [A B]. split; [|exact B]. intros q H. apply A. intros X. apply H. now apply below_child in X. Qed.
Lemma real_inside f g p : real_dirs f p -> inside p f g -> real_dirs g p.
Proof.
  intros R [A _] a b E Ha Hb. rewrite A; [now apply (R a b)|]. subst p. now apply above_not_below.
Qed.
Lemma inside_remove p f : inside p f (remove f p).
Proof.
  split; intros q; rewrite lookup_remove.
  - intros H. destruct (path_eqb p q) eqn:E; [|reflexivity]. apply path_eqb_spec in E. subst. contradiction H. apply below_refl.
  - destruct (path_eqb p q); auto.
Qed.
Lemma wf_remove f p : wf_fs f -> (forall c, lookup f (p ++ [c]) = None) -> wf_fs (remove f p).
Proof.
  intros [U W] H. split.
  - unfold remove. clear W H. induction f as [|[q n] f IH]; [constructor|]. cbn in *. inversion U as [|? ? N U']; subst.
    destruct (path_eqb q p); cbn; [now apply IH|]. constructor; [|now apply IH].
    intros X. apply N. apply in_map_iff in X as ([q' m] & E & Hin). apply filter_In in Hin as [Hin _]. apply in_map_iff. exists (q', m). auto.
  - intros a c n. rewrite !lookup_remove. destruct (path_eqb p (a ++ [c])) eqn:E1; [discriminate|]. intros L Ha.
    destruct (path_eqb p a) eqn:E2.
    + apply path_eqb_spec in E2. subst a. rewrite H in L. discriminate.
    + now apply (W a c n).
Qed.

(** ** rm_tree *)
Lemma no_child f p k d : wf_fs f -> p <> [] -> lookup f p = Some (mkNode k d) -> k <> KDir -> forall c, lookup f (p ++ [c]) = None.
Proof.
  intros [_ W] Hp L N c. destruct (lookup f (p ++ [c])) as [n|] eqn:C; [|reflexivity].
  destruct (W _ _ _ C Hp) as (d' & E). congruence.
Qed.

(** what a system call that removes [p] does *)
Definition removal (ok : bool) (p : path) (f f' : fs) : Prop :=
  inside p f f' /\ wf_fs f' /\ (ok = true -> lookup f' p = None) /\ (ok = false -> f' = f).
Lemma removal_none p f : wf_fs f -> removal false p f f.
Proof. intros W. split; [apply inside_refl|]. split; [exact W|]. split; [discriminate|reflexivity]. Qed.
Lemma removal_some p f : wf_fs f -> (forall c, lookup f (p ++ [c]) = None) -> removal true p f (remove f p).
Proof.
  intros W N. split; [apply inside_remove|]. split; [now apply wf_remove|]. split; [|discriminate]. intros _. now rewrite lookup_remove, path_eqb_refl.
Qed.

Lemma unlink_spec e f p ok f' : real_dirs f p -> p <> [] -> wf_fs f -> unlink e f p = (ok, f') ->
  removal ok p f f' /\ (forall n, lookup f p = Some n -> nd_kind n <> KDir -> e_keep e p = false -> ok = true).
Proof.
  intros R Hp W H. unfold unlink in H. rewrite (resolve_real _ _ R) in H.
  destruct (lookup f p) as [[k d]|] eqn:L.
  2:{ apply pair_equal_spec in H as [<- <-]. split; [now apply removal_none|discriminate]. }
  destruct (match k with KDir => true | _ => false end) eqn:KD.
  { destruct k; try discriminate. apply pair_equal_spec in H as [<- <-]. split; [now apply removal_none|]. intros n E. injection E as <-. now cbn. }
  assert (ND : k <> KDir) by (intros ->; discriminate).
  assert (H' : (if e_keep e p then (false, f) else (true, remove f p)) = (ok, f')) by (destruct k; [discriminate|exact H..]).
  destruct (e_keep e p) eqn:EK; apply pair_equal_spec in H' as [<- <-].
  - split; [now apply removal_none|discriminate].
  - split; [|reflexivity]. apply removal_some; [exact W|]. now apply (no_child f p k d).
Qed.
Lemma rmdir_spec e f p ok f' : real_dirs f p -> p <> [] -> wf_fs f -> rmdir e f p = (ok, f') ->
  removal ok p f f' /\ (forall d, lookup f p = Some (mkNode KDir d) -> children f p = [] -> e_keep e p = false -> ok = true).
Proof.
  intros R Hp W H. unfold rmdir in H. rewrite (resolve_real _ _ R) in H.
  assert (K : (ok, f') = (false, f) -> (forall d, lookup f p = Some (mkNode KDir d) -> children f p = [] -> e_keep e p = true) ->
    removal ok p f f' /\ (forall d, lookup f p = Some (mkNode KDir d) -> children f p = [] -> e_keep e p = false -> ok = true)).
  { intros E X. apply pair_equal_spec in E as [-> ->]. split; [now apply removal_none|]. intros d L C N. rewrite (X d L C) in N. discriminate. }
  destruct (lookup f p) as [[k d]|] eqn:L; [|apply K; [congruence|discriminate]].
  destruct (match k with KDir => true | _ => false end) eqn:KD.
  2:{ apply K; [destruct k; try discriminate KD; congruence|]. intros d' E. injection E as -> ->. discriminate. }
  destruct k; try discriminate. destruct (children f p) as [|c l] eqn:CH; [|apply K; [congruence|discriminate]].
  destruct (e_keep e p) eqn:EK; [apply K; [congruence|auto]|].
  apply pair_equal_spec in H as [<- <-]. split; [|reflexivity]. apply removal_some; [exact W|].
  intros c. destruct (lookup f (p ++ [c])) as [n|] eqn:C; [|reflexivity]. exfalso.
  assert (X : In c (children f p)) by (apply children_spec; eauto). rewrite CH in X. destruct X.
Qed.

Lemma cb_spec e f p t r f' : real_dirs f p -> p <> [] -> wf_fs f -> rm_tree_cb e f p t = (r, f') ->
  inside p f f' /\ wf_fs f' /\ (r = WGo -> lookup f' p = None) /\ (r = WGo \/ r = WFail).
Proof.
  intros R Hp W H. unfold rm_tree_cb in H. destruct t.
  - destruct (unlink e f p) as [ok g] eqn:E. destruct (unlink_spec _ _ _ _ _ R Hp W E) as [(A & B & C & _) _].
    apply pair_equal_spec in H as [<- <-]. split; [exact A|]. split; [exact B|]. destruct ok; split; auto; discriminate.
  - destruct (unlink e f p) as [ok g] eqn:E. destruct (unlink_spec _ _ _ _ _ R Hp W E) as [(A & B & C & _) _].
    apply pair_equal_spec in H as [<- <-]. split; [exact A|]. split; [exact B|]. destruct ok; split; auto; discriminate.
  - destruct (rmdir e f p) as [ok g] eqn:E. destruct (rmdir_spec _ _ _ _ _ R Hp W E) as [(A & B & C & _) _].
    apply pair_equal_spec in H as [<- <-]. split; [exact A|]. split; [exact B|]. destruct ok; split; auto; discriminate.
  - apply pair_equal_spec in H as [<- <-]. split; [apply inside_refl|]. split; [exact W|]. split; [discriminate|auto].
  - apply pair_equal_spec in H as [<- <-]. split; [apply inside_refl|]. split; [exact W|]. split; [discriminate|auto].
Qed.

(** the loop over the names of a directory *)
Definition loop (e : env) (cb : fs -> path -> typeflag -> walk * fs) (dev : N) (fuel : nat) (p : path) (names : list string) (a : walk * fs) : walk * fs :=
  fold_left (fun (a : walk * fs) c => match fst a with WGo => nftw e cb dev fuel (snd a) (p ++ [c]) | _ => a end) names a.
Lemma loop_stop e cb dev fuel p names : forall r f, r <> WGo -> loop e cb dev fuel p names (r, f) = (r, f).
Proof.
  induction names as [|c l IH]; intros r f N; [reflexivity|]. unfold loop in *. cbn [fold_left fst]. destruct r; [contradiction|now apply IH..].
Qed.
Lemma nftw_eq e cb dev fuel f p : nftw e cb dev (S fuel) f p =
  match lstat f p with
  | None => cb f p FTW_NS
  | Some n => if negb (N.eqb (nd_dev n) dev) then (WGo, f)
      else match nd_kind n with
           | KLink _ => cb f p FTW_SL
           | KDir => match readdir e f p with
                     | None => cb f p FTW_DNR
                     | Some names => let '(r, f1) := loop e cb dev fuel p names (WGo, f) in match r with WGo => cb f1 p FTW_DP | _ => (r, f1) end
                     end
           | _ => cb f p FTW_F
           end
  end.
Proof. reflexivity. Qed.

Lemma rm_walk e dev fuel : forall f p r f', real_dirs f p -> p <> [] -> wf_fs f -> nftw e (rm_tree_cb e) dev fuel f p = (r, f') ->
  inside p f f' /\ wf_fs f' /\ (r = WGo -> (forall n, lookup f p = Some n -> nd_dev n = dev) -> lookup f' p = None) /\ (r = WGo \/ r = WFail).
Proof.
  induction fuel as [|fuel IH]; intros f p r f' R Hp W H.
  { cbn in H. apply pair_equal_spec in H as [<- <-]. split; [apply inside_refl|]. split; [exact W|]. split; [discriminate|auto]. }
  rewrite nftw_eq in H. unfold lstat in H. rewrite (resolve_real _ _ R) in H.
  assert (CB : forall g t, inside p f g -> wf_fs g -> rm_tree_cb e g p t = (r, f') ->
    inside p f f' /\ wf_fs f' /\ (r = WGo -> (forall n, lookup f p = Some n -> nd_dev n = dev) -> lookup f' p = None) /\ (r = WGo \/ r = WFail)).
  { intros g t I1 W1 E. destruct (cb_spec e g p t r f' (real_inside _ _ _ R I1) Hp W1 E) as (A & B & C & D).
    split; [now apply (inside_trans p f g)|]. split; [exact B|]. split; [auto|exact D]. }
  destruct (lookup f p) as [n|] eqn:L; [|apply (CB f FTW_NS (inside_refl _ _) W H)].
  destruct (N.eqb_spec (nd_dev n) dev) as [E|NE]; cbn [negb] in H.
  2:{ apply pair_equal_spec in H as [<- <-]. split; [apply inside_refl|]. split; [exact W|]. split; [|now left]. intros _ X. now contradiction (NE (X n eq_refl)). }
  destruct n as [k d]. cbn [nd_kind nd_dev] in *. destruct k; try (apply (CB f _ (inside_refl _ _) W H)).
  unfold readdir in H. rewrite (resolve_real _ _ R) in H. destruct (e_unreadable e p); [apply (CB f _ (inside_refl _ _) W H)|].
  set (names := children f p) in H. clearbody names.
  assert (LP : forall l g r' g', inside p f g -> wf_fs g -> lookup g p = Some (mkNode KDir d) -> loop e (rm_tree_cb e) dev fuel p l (WGo, g) = (r', g') ->
     inside p f g' /\ wf_fs g' /\ (r' = WGo \/ r' = WFail)).
  { induction l as [|c l IL]; intros g r' g' I1 W1 L1 EL.
    - cbn in EL. apply pair_equal_spec in EL as [<- <-]. auto.
    - unfold loop in EL. cbn [fold_left fst snd] in EL. fold (loop e (rm_tree_cb e) dev fuel p l (nftw e (rm_tree_cb e) dev fuel g (p ++ [c]))) in EL.
      destruct (nftw e (rm_tree_cb e) dev fuel g (p ++ [c])) as [r1 g1] eqn:E1.
      assert (R1 : real_dirs g (p ++ [c])) by (apply (real_child g p c d); [now apply (real_inside f)|now left]).
      destruct (IH g (p ++ [c]) r1 g1 R1 ltac:(destruct p; discriminate) W1 E1) as (A & B & _ & D).
      pose proof (inside_child _ _ _ _ A) as A'. pose proof (inside_trans _ _ _ _ I1 A') as I2.
      destruct D as [-> | ->].
      + apply (IL g1 r' g' I2 B); [|exact EL]. destruct A as [A _]. rewrite A; [exact L1|]. apply above_not_below. discriminate.
      + rewrite loop_stop in EL by discriminate. apply pair_equal_spec in EL as [<- <-]. auto. }
  destruct (loop e (rm_tree_cb e) dev fuel p names (WGo, f)) as [r1 g1] eqn:E1.
  destruct (LP names f r1 g1 (inside_refl _ _) W L E1) as (A & B & [-> | ->]).
  - apply (CB g1 FTW_DP A B H).
  - apply pair_equal_spec in H as [<- <-]. split; [exact A|]. split; [exact B|]. split; [discriminate|auto].
Qed.

Lemma below_gone f p : wf_fs f -> p <> [] -> lookup f p = None -> forall q, below p q -> lookup f q = None.
Proof.
  intros [_ W] Hp L q (r & ->). induction r as [|x r IH] using rev_ind; [now rewrite app_nil_r|].
  destruct (lookup f (p ++ r ++ [x])) as [n|] eqn:E; [|reflexivity]. rewrite app_assoc in E.
  destruct (W _ _ _ E ltac:(destruct p; [contradiction|discriminate])) as (d & X). congruence.
Qed.

(** only what is below [p] is removed, nothing is added or changed; on success all of it is gone *)
Lemma c77_rm_ok : forall e f p ok f', wf_fs f -> real_dirs f p -> rm_tree e f p = (ok, f') ->
  (forall q, ~ below p q -> lookup f' q = lookup f q) /\
  (forall q n, lookup f' q = Some n -> lookup f q = Some n) /\
  (ok = true -> forall q, below p q -> lookup f' q = None).
Proof.
  intros e f p ok f' W R H. unfold rm_tree in H. destruct p as [|a p].
  { apply pair_equal_spec in H as [<- <-]. split; [reflexivity|]. split; [auto|discriminate]. }
  set (pp := a :: p) in *. assert (Hp : pp <> []) by discriminate. clearbody pp.
  destruct (nftw_start e (rm_tree_cb e) f pp) as [r g] eqn:E. apply pair_equal_spec in H as [<- <-].
  unfold nftw_start in E. unfold lstat in E. rewrite (resolve_real _ _ R) in E. destruct (lookup f pp) as [n|] eqn:L.
  - destruct (rm_walk _ _ _ _ _ _ _ R Hp W E) as ((A1 & A2) & B & C & D). split; [exact A1|]. split.
    + intros q m X. destruct (A2 q); congruence.
    + intros X. destruct r; try discriminate. apply below_gone; [exact B|exact Hp|]. apply C; [reflexivity|]. intros m Lm. congruence.
  - apply pair_equal_spec in E as [<- <-]. split; [reflexivity|]. split; [auto|discriminate].
Qed.

(** ** and it succeeds if nothing stands in the way *)
Lemma children_none f p : (forall c, lookup f (p ++ [c]) = None) -> children f p = [].
Proof.
  intros H. destruct (children f p) as [|c l] eqn:E; [reflexivity|]. exfalso.
  assert (X : In c (children f p)) by (rewrite E; now left). apply children_spec in X as (n & X). rewrite H in X. discriminate.
Qed.
Lemma child_neq p c c' r : c <> c' -> ~ below (p ++ [c]) (p ++ c' :: r).
Proof.
  intros N (x & E). rewrite <- app_assoc in E. apply app_inv_head in E. injection E. congruence.
Qed.

Lemma rm_walk_go e dev fuel : forall f p n, real_dirs f p -> p <> [] -> wf_fs f -> lookup f p = Some n ->
  (forall q m, below p q -> lookup f q = Some m -> nd_dev m = dev /\ e_keep e q = false /\ e_unreadable e q = false /\ List.length q < List.length p + fuel) ->
  fst (nftw e (rm_tree_cb e) dev fuel f p) = WGo.
Proof.
  induction fuel as [|fuel IH]; intros f p n R Hp W L H.
  { destruct (H p n (below_refl p) L) as (_ & _ & _ & X). lia. }
  rewrite nftw_eq. unfold lstat. rewrite (resolve_real _ _ R), L.
  destruct (H p n (below_refl p) L) as (ED & EK & EU & _). rewrite ED, N.eqb_refl. cbn [negb].
  assert (F : nd_kind n <> KDir -> forall t, t = FTW_F \/ t = FTW_SL -> fst (rm_tree_cb e f p t) = WGo).
  { intros ND t T. assert (X : fst (let '(ok, f') := unlink e f p in (if ok then WGo else WFail, f')) = WGo).
    { destruct (unlink e f p) as [ok g] eqn:E. destruct (unlink_spec _ _ _ _ _ R Hp W E) as [_ X]. rewrite (X n L ND EK). reflexivity. }
    destruct T as [-> | ->]; exact X. }
  destruct n as [k d]. cbn [nd_kind nd_dev] in *. destruct k; try (apply F; [discriminate|auto]).
  unfold readdir. rewrite (resolve_real _ _ R), EU.
  (* the loop *)
  assert (LP : forall l g, NoDup l -> inside p f g -> wf_fs g -> lookup g p = Some (mkNode KDir d) ->
     (forall c, In c l -> exists m, lookup g (p ++ [c]) = Some m) ->
     (forall c, ~ In c l -> lookup g (p ++ [c]) = None) ->
     exists g', loop e (rm_tree_cb e) dev fuel p l (WGo, g) = (WGo, g') /\ inside p f g' /\ wf_fs g' /\ lookup g' p = Some (mkNode KDir d) /\
        forall c, lookup g' (p ++ [c]) = None).
  { induction l as [|c l IL]; intros g U I1 W1 L1 HI HN.
    - exists g. split; [reflexivity|]. repeat (split; [assumption|]). intros c. apply HN. auto.
    - inversion U as [|? ? NI U' EQ1]; clear EQ1. destruct (HI c (or_introl eq_refl)) as (m & Lc).
      assert (R1 : real_dirs g (p ++ [c])) by (apply (real_child g p c d); [now apply (real_inside f)|now left]).
      assert (Hc : p ++ [c] <> []) by (destruct p; discriminate).
      assert (G1 : fst (nftw e (rm_tree_cb e) dev fuel g (p ++ [c])) = WGo).
      { apply (IH g (p ++ [c]) m R1 Hc W1 Lc). intros q m' Bq Lq.
        assert (Lf : lookup f q = Some m') by (destruct I1 as [_ I1]; destruct (I1 q); congruence).
        destruct (H q m' (below_child _ _ _ Bq) Lf) as (X1 & X2 & X3 & X4). rewrite app_length. cbn. repeat split; auto. lia. }
      destruct (nftw e (rm_tree_cb e) dev fuel g (p ++ [c])) as [r1 g1] eqn:E1. cbn in G1. subst r1.
      destruct (rm_walk _ _ _ _ _ _ _ R1 Hc W1 E1) as (A & B & C & _). pose proof (inside_child _ _ _ _ A) as A'.
      assert (Gc : lookup g1 (p ++ [c]) = None).
      { apply C; [reflexivity|]. intros m' Lm. assert (Lf : lookup f (p ++ [c]) = Some m') by (destruct I1 as [_ I1]; destruct (I1 (p ++ [c])); congruence).
        destruct (H (p ++ [c]) m' ltac:(exists [c]; reflexivity) Lf) as (X & _). exact X. }
      unfold loop. cbn [fold_left fst snd]. rewrite E1. apply (IL g1 U').
      + exact (inside_trans _ _ _ _ I1 A').
      + exact B.
      + destruct A as [A _]. rewrite A; [exact L1|]. apply above_not_below. discriminate.
      + intros c' Hc'. destruct (HI c' (or_intror Hc')) as (m' & Lc'). exists m'. destruct A as [A _]. rewrite A; [exact Lc'|].
        apply child_neq. intros ->. contradiction.
      + intros c' Hc'. destruct (string_dec c c') as [<-|NE]; [exact Gc|]. destruct A as [A _]. rewrite A; [apply HN; intros [X|X]; contradiction|]. now apply child_neq. }
  destruct (LP (children f p) f) as (g' & E & I1 & W1 & L1 & N1); try assumption.
  - apply children_nodup. apply W.
  - apply inside_refl.
  - intros c Hc. now apply children_spec.
  - intros c Hc. destruct (lookup f (p ++ [c])) eqn:X; [|reflexivity]. contradiction Hc. apply children_spec. eauto.
  - rewrite E. unfold rm_tree_cb. destruct (rmdir e g' p) as [ok h] eqn:E2.
    destruct (rmdir_spec _ _ _ _ _ (real_inside _ _ _ R I1) Hp W1 E2) as [_ X]. rewrite (X d L1 (children_none _ _ N1) EK). reflexivity.
Qed.

Lemma depth_spec f q n : lookup f q = Some n -> List.length q < depth f.
Proof.
  intros H. apply lookup_in in H. unfold depth. induction f as [|[p m] f IH]; [destruct H|]. cbn [map fst fold_right] in *.
  destruct H as [<-|H]; [|specialize (IH H)]; lia.
Qed.

Lemma c77_rm_complete_ok : forall e f p n, wf_fs f -> real_dirs f p -> p <> [] -> lookup f p = Some n ->
  (forall q m, below p q -> lookup f q = Some m -> nd_dev m = nd_dev n /\ e_keep e q = false /\ e_unreadable e q = false) ->
  fst (rm_tree e f p) = true.
Proof.
  intros e f p n W R Hp L H. unfold rm_tree. destruct p as [|a p]; [contradiction|]. set (pp := a :: p) in *. clearbody pp.
  unfold nftw_start, lstat. rewrite (resolve_real _ _ R), L.
  assert (X : fst (nftw e (rm_tree_cb e) (nd_dev n) (depth f) f pp) = WGo).
  { apply (rm_walk_go e (nd_dev n) (depth f) f pp n R Hp W L). intros q m B Lq. destruct (H q m B Lq) as (X1 & X2 & X3). apply depth_spec in Lq. repeat split; auto. lia. }
  destruct (nftw _ _ _ _ _ _) as [r g]. cbn in X. subst r. reflexivity.
Qed.

(** ** open files *)
Definition checked (e : env) (f : fs) (q : path) (n : node) : Prop :=
  match nd_kind n with
  | KDir => e_unreadable e q = false
  | KLink _ => True
  | KFile o => o = false /\ e_noopen e q = false /\ e_nolease e q = false
  | KFifo | KDevice => False
  end.

Lemma check_cb_state e f p t : snd (tree_check_open_cb e f p t) = f.
Proof. reflexivity. Qed.
Lemma check_state e dev fuel : forall f p, snd (nftw e (tree_check_open_cb e) dev fuel f p) = f.
Proof.
  induction fuel as [|fuel IH]; intros f p; [reflexivity|]. rewrite nftw_eq. destruct (lstat f p) as [n|]; [|reflexivity].
  destruct (negb _); [reflexivity|]. destruct (nd_kind n); try reflexivity. destruct (readdir e f p) as [names|]; [|reflexivity].
  assert (LP : forall l a, snd a = f -> snd (loop e (tree_check_open_cb e) dev fuel p l a) = f).
  { induction l as [|c l IL]; intros [r g] E; [exact E|]. cbn in E. subst g. unfold loop. cbn [fold_left fst snd]. apply IL. destruct r; [apply IH|reflexivity..]. }
  specialize (LP names (WGo, f) eq_refl). destruct (loop _ _ _ _ _ _ _) as [r g]. cbn in LP. subst g. destruct r; reflexivity.
Qed.

Lemma check_loop e dev fuel f p : forall l,
  (fst (loop e (tree_check_open_cb e) dev fuel p l (WGo, f)) = WGo <-> forall c, In c l -> fst (nftw e (tree_check_open_cb e) dev fuel f (p ++ [c])) = WGo) /\
  (forall r, r <> WGo -> fst (loop e (tree_check_open_cb e) dev fuel p l (WGo, f)) = r -> exists c, In c l /\ fst (nftw e (tree_check_open_cb e) dev fuel f (p ++ [c])) = r).
Proof.
  induction l as [|c l IL].
  - split; [split; [intros _ c []|reflexivity]|]. intros r N E. cbn in E. congruence.
  - unfold loop. cbn [fold_left fst snd]. pose proof (check_state e dev fuel f (p ++ [c])) as S.
    destruct (nftw e (tree_check_open_cb e) dev fuel f (p ++ [c])) as [r1 g] eqn:E1. cbn in S. subst g.
    fold (loop e (tree_check_open_cb e) dev fuel p l (r1, f)).
    destruct (match r1 with WGo => true | _ => false end) eqn:G.
    + destruct r1; try discriminate. destruct IL as [IL1 IL2]. split.
      * rewrite IL1. split; [intros X c' [<-|Hc]; [now rewrite E1|auto]|intros X c' Hc; apply X; now right].
      * intros r N E. destruct (IL2 r N E) as (c' & Hc & X). exists c'. split; [now right|exact X].
    + assert (N1 : r1 <> WGo) by (intros ->; discriminate). rewrite loop_stop by exact N1. cbn [fst]. split.
      * split; [congruence|]. intros X. specialize (X c (or_introl eq_refl)). rewrite E1 in X. cbn in X. congruence.
      * intros r N E. exists c. split; [now left|]. rewrite E1. exact E.
Qed.

Lemma check_walk e dev fuel : forall f p, real_dirs f p -> p <> [] -> wf_fs f ->
  (fst (nftw e (tree_check_open_cb e) dev fuel f p) = WGo -> forall q n, same_fs f p q dev -> lookup f q = Some n -> checked e f q n) /\
  (fst (nftw e (tree_check_open_cb e) dev fuel f p) = WStop -> exists q, below p q /\ lookup f q = Some (mkNode (KFile true) dev)) /\
  ((exists n, lookup f p = Some n) -> (forall q n, below p q -> lookup f q = Some n -> checked e f q n /\ List.length q < List.length p + fuel) ->
     fst (nftw e (tree_check_open_cb e) dev fuel f p) = WGo).
Proof.
  induction fuel as [|fuel IH]; intros f p R Hp W.
  { split; [discriminate|]. split; [discriminate|]. intros (n & L) H. destruct (H p n (below_refl p) L) as [_ X]. lia. }
  rewrite nftw_eq. unfold lstat. rewrite (resolve_real _ _ R).
  destruct (lookup f p) as [n|] eqn:L.
  2:{ split; [cbn; discriminate|]. split; [cbn; discriminate|]. intros (n & X). discriminate. }
  destruct (N.eqb_spec (nd_dev n) dev) as [ED|NE]; cbn [negb].
  2:{ split.
      - intros _ q m (r & -> & X) Lq. destruct (X [] r eq_refl) as (n' & L' & D'). rewrite app_nil_r in L'. congruence.
      - split; [cbn; discriminate|reflexivity]. }
  destruct n as [k d]. cbn [nd_dev] in ED. subst d. cbn [nd_kind].
  assert (LEAF : k <> KDir -> forall q m, same_fs f p q dev -> lookup f q = Some m -> q = p /\ m = mkNode k dev).
  { intros ND q m (r & -> & _) Lq. destruct r as [|x r]; [rewrite app_nil_r in *; split; [reflexivity|congruence]|].
    exfalso. assert (Z : lookup f (p ++ [x]) = None) by now apply (no_child f p k dev).
    assert (Z2 : lookup f ((p ++ [x]) ++ r) = None) by (apply (below_gone f (p ++ [x])); [exact W|destruct p; discriminate|exact Z|now exists r]).
    rewrite <- app_assoc in Z2. cbn in Z2. congruence. }
  destruct k as [|o|t| |].
  - (* directory *)
    unfold readdir. rewrite (resolve_real _ _ R). destruct (e_unreadable e p) eqn:EU.
    { split; [cbn; discriminate|]. split; [cbn; discriminate|]. intros _ H. destruct (H p _ (below_refl p) L) as [X _]. cbn in X. congruence. }
    assert (RC : forall c, real_dirs f (p ++ [c])) by (intros c; apply (real_child f p c dev); [exact R|now left]).
    assert (NC : forall c, p ++ [c] <> []) by (intros c; destruct p; discriminate).
    destruct (check_loop e dev fuel f p (children f p)) as [LP1 LP2].
    assert (RES : fst (let '(r, f1) := loop e (tree_check_open_cb e) dev fuel p (children f p) (WGo, f) in
                       match r with WGo => tree_check_open_cb e f1 p FTW_DP | _ => (r, f1) end) = fst (loop e (tree_check_open_cb e) dev fuel p (children f p) (WGo, f))).
    { destruct (loop _ _ _ _ _ _ _) as [r g]. destruct r; reflexivity. }
    rewrite RES. clear RES. split; [|split].
    + intros G q m (r & -> & X) Lq. rewrite LP1 in G. destruct r as [|c r].
      * rewrite app_nil_r in *. rewrite L in Lq. injection Lq as <-. exact EU.
      * destruct (X [c] r eq_refl) as (n' & L' & D').
        assert (Hc : In c (children f p)) by (apply children_spec; eauto).
        destruct (IH f (p ++ [c]) (RC c) (NC c) W) as [I1 _].
        apply (I1 (G c Hc)); [|exact Lq]. exists r. split; [now rewrite <- app_assoc|]. intros a b E. rewrite <- app_assoc. apply (X (c :: a) b). cbn. now rewrite E.
    + intros G. destruct (LP2 WStop ltac:(discriminate) G) as (c & Hc & X). destruct (IH f (p ++ [c]) (RC c) (NC c) W) as (_ & I2 & _).
      destruct (I2 X) as (q & Bq & Lq). exists q. split; [now apply below_child in Bq|exact Lq].
    + intros _ H. apply LP1. intros c Hc. destruct (IH f (p ++ [c]) (RC c) (NC c) W) as (_ & _ & I3). apply I3; [now apply children_spec|].
      intros q n Bq Lq. destruct (H q n (below_child _ _ _ Bq) Lq) as [X Y]. split; [exact X|]. rewrite app_length. cbn. lia.
  - unfold tree_check_open_cb. rewrite (resolve_real _ _ R), L. cbn [fst]. split; [|split].
    + intros G q m S Lq. destruct (LEAF ltac:(discriminate) q m S Lq) as [-> ->]. cbn. destruct (e_noopen e p), (e_nolease e p), o; try discriminate. auto.
    + intros G. exists p. split; [apply below_refl|]. destruct (e_noopen e p), (e_nolease e p), o; try discriminate. exact L.
    + intros _ H. destruct (H p _ (below_refl p) L) as [X _]. cbn in X. destruct X as (-> & -> & ->). reflexivity.
  - cbn [tree_check_open_cb fst]. split; [|split; [discriminate|reflexivity]]. intros _ q m S Lq. destruct (LEAF ltac:(discriminate) q m S Lq) as [-> ->]. exact Logic.I.
  - unfold tree_check_open_cb. rewrite (resolve_real _ _ R), L. cbn [fst]. split; [|split].
    + destruct (e_noopen e p); discriminate.
    + destruct (e_noopen e p); discriminate.
    + intros _ H. destruct (H p _ (below_refl p) L) as [X _]. destruct X.
  - unfold tree_check_open_cb. rewrite (resolve_real _ _ R), L. cbn [fst]. split; [|split].
    + destruct (e_noopen e p); discriminate.
    + destruct (e_noopen e p); discriminate.
    + intros _ H. destruct (H p _ (below_refl p) L) as [X _]. destruct X.
Qed.

Lemma check_start e f p n : real_dirs f p -> p <> [] -> lookup f p = Some n ->
  tree_check_open e f p = match fst (nftw e (tree_check_open_cb e) (nd_dev n) (depth f) f p) with
         | WGo => Unused | WStop => InUse | WFail => Unknown | WHang => Hangs end.
Proof.
  intros R Hp L. unfold tree_check_open. destruct p as [|a p]; [contradiction|]. unfold nftw_start, lstat. rewrite (resolve_real _ _ R), L. reflexivity.
Qed.

(** a tree is said to be unused only if no file in it is open; and in use only if one is *)
Lemma c77_open_ok : forall e f p n, wf_fs f -> real_dirs f p -> p <> [] -> lookup f p = Some n ->
  (tree_check_open e f p = Unused -> forall q o d, same_fs f p q (nd_dev n) -> lookup f q = Some (mkNode (KFile o) d) -> o = false) /\
  (tree_check_open e f p = InUse -> exists q, below p q /\ lookup f q = Some (mkNode (KFile true) (nd_dev n))) /\
  ((forall q m, below p q -> lookup f q = Some m ->
      match nd_kind m with
      | KDir => e_unreadable e q = false
      | KFile o => o = false /\ e_noopen e q = false /\ e_nolease e q = false
      | KLink _ => True
      | KFifo | KDevice => False
      end) -> tree_check_open e f p = Unused).
Proof.
  intros e f p n W R Hp L. rewrite (check_start e f p n R Hp L). destruct (check_walk e (nd_dev n) (depth f) f p R Hp W) as (C1 & C2 & C3).
  split; [|split].
  - intros G q o d S Lq. destruct (fst (nftw _ _ _ _ _ _)); try discriminate. specialize (C1 eq_refl q _ S Lq). cbn in C1. apply C1.
  - intros G. destruct (fst (nftw _ _ _ _ _ _)); try discriminate. now apply C2.
  - intros H. rewrite C3; [reflexivity|eauto|]. intros q m Bq Lq. split; [now apply H|]. apply depth_spec in Lq. lia.
Qed.

(** pruning: an artifact with an open file stays; only its own files are removed *)
Lemma c77_prune_ok : forall e f p n r f', wf_fs f -> real_dirs f p -> p <> [] -> lookup f p = Some n -> prune_artifact e f p = (r, f') ->
  (forall q, ~ below p q -> lookup f' q = lookup f q) /\
  (forall q, same_fs f p q (nd_dev n) -> lookup f q = Some (mkNode (KFile true) (nd_dev n)) -> f' = f /\ r <> Some (Ok true)) /\
  (r = Some (Ok true) -> forall q, below p q -> lookup f' q = None) /\
  (r = Some (Ok false) -> f' = f /\ exists q, below p q /\ lookup f q = Some (mkNode (KFile true) (nd_dev n))).
Proof.
  intros e f p n r f' W R Hp L H. unfold prune_artifact in H. destruct (c77_open_ok e f p n W R Hp L) as (C1 & C2 & _).
  destruct (tree_check_open e f p) eqn:T.
  - destruct (rm_tree e f p) as [ok g] eqn:E. destruct (c77_rm_ok e f p ok g W R E) as (A & B & C). apply pair_equal_spec in H as [<- <-].
    split; [exact A|]. split.
    { intros q S Lq. specialize (C1 eq_refl q true _ S Lq). discriminate. }
    split; [destruct ok; [auto|discriminate]|destruct ok; discriminate].
  - apply pair_equal_spec in H as [<- <-]. split; [reflexivity|]. split; [intros; split; [reflexivity|discriminate]|]. split; [discriminate|]. intros _. split; [reflexivity|now apply C2].
  - apply pair_equal_spec in H as [<- <-]. split; [reflexivity|]. split; [intros; split; [reflexivity|discriminate]|]. split; discriminate.
  - apply pair_equal_spec in H as [<- <-]. split; [reflexivity|]. split; [intros; split; [reflexivity|discriminate]|]. split; discriminate.
Qed.

(** a FIFO in an artifact blocks pruning for ever; a device node makes it fail *)
Definition fifo_fs (k : kind) : fs := [(["r"], mkNode KDir 1); (["r"; "art"], mkNode KDir 1); (["r"; "art"; "x"], mkNode k 1)].
Definition plain_env : env := mkEnv (fun _ => false) (fun _ => false) (fun _ => false) (fun _ => false).
Lemma fifo_wf k : wf_fs (fifo_fs k) /\ real_dirs (fifo_fs k) ["r"; "art"].
Proof.
  split; [split|].
  - repeat constructor; cbn; intuition discriminate.
  - intros a c n H Ha. apply lookup_in in H. cbn in H. destruct H as [H|[H|[H|[]]]].
    + change ["r"] with ([] ++ ["r"]) in H. apply app_inj_tail in H as [<- _]. contradiction.
    + change ["r"; "art"] with (["r"] ++ ["art"]) in H. apply app_inj_tail in H as [<- _]. eexists. reflexivity.
    + change ["r"; "art"; "x"] with (["r"; "art"] ++ ["x"]) in H. apply app_inj_tail in H as [<- _]. eexists. reflexivity.
  - intros a b H Ha Hb. destruct a as [|x [|y a]]; [contradiction| |].
    + injection H as <- _. eexists. reflexivity.
    + injection H as _ _ H. destruct a; [|discriminate]. cbn in H. subst b. contradiction.
Qed.
Lemma c77_fifo_refuted : exists f p, wf_fs f /\ real_dirs f p /\
  (forall q n, lookup f q = Some n -> nd_dev n = 1%N /\ nd_kind n <> KFile true) /\
  prune_artifact plain_env f p = (None, f).
Proof.
  exists (fifo_fs KFifo), ["r"; "art"]. destruct (fifo_wf KFifo) as [W R]. split; [exact W|]. split; [exact R|]. split; [|reflexivity].
  intros q n H. assert (X := lookup_in _ _ _ H). cbn in X. destruct X as [<-|[<-|[<-|[]]]]; apply Some_inj in H; subst n; split; (reflexivity || discriminate).
Qed.
Lemma c77_device_refuted : exists f p, wf_fs f /\ real_dirs f p /\
  (forall q n, lookup f q = Some n -> nd_dev n = 1%N /\ nd_kind n <> KFile true) /\
  prune_artifact plain_env f p = (Some Err, f).
Proof.
  exists (fifo_fs KDevice), ["r"; "art"]. destruct (fifo_wf KDevice) as [W R]. split; [exact W|]. split; [exact R|]. split; [|reflexivity].
  intros q n H. assert (X := lookup_in _ _ _ H). cbn in X. destruct X as [<-|[<-|[<-|[]]]]; apply Some_inj in H; subst n; split; (reflexivity || discriminate).
Qed.

(** ** file names *)
Lemma c77_names_ok : forall cwd base,
  (forall l, resolve_path cwd base l = None <-> l = None) /\
  (forall u, resolve_path cwd base (Some (LUri u)) = Some (LUri u)) /\
  (forall n, fn_abs n = true -> resolve_path cwd base (Some (LFile n)) = Some (LFile n)) /\
  (forall n, fn_abs cwd = true -> exists m, resolve_path cwd base (Some (LFile n)) = Some (LFile m) /\ fn_abs m = true) /\
  (forall b parts dir file, base = Some b -> b = mkFname true (dir ++ [file]) ->
     resolve_path cwd base (Some (LFile (mkFname false parts))) = Some (LFile (mkFname true (dir ++ parts)))) /\
  (forall parts, base = None -> resolve_path cwd base (Some (LFile (mkFname false parts))) = Some (LFile (mkFname (fn_abs cwd) (fn_parts cwd ++ parts)))).
Proof.
  assert (DL : forall d f, drop_last_component (d ++ [f]) = d).
  { induction d as [|a d IH]; intros f; [reflexivity|]. cbn. specialize (IH f). destruct (d ++ [f]) eqn:E; [destruct d; discriminate|]. now rewrite IH. }
  intros cwd base. split; [|split; [|split; [|split; [|split]]]].
  - intros [[u|n]|]; cbn; [split; discriminate| |split; reflexivity]. split; [|discriminate].
    destruct (fn_abs n); [discriminate|]. destruct base as [b|]; [|discriminate]. destruct (fn_abs b); discriminate.
  - reflexivity.
  - intros n H. cbn. now rewrite H.
  - intros n H. cbn. destruct (fn_abs n) eqn:E; [eauto|]. destruct base as [b|]; [|eexists; split; [reflexivity|exact H]].
    destruct (fn_abs b) eqn:EB; eexists; (split; [reflexivity|]); assumption.
  - intros b parts dir file -> ->. cbn. unfold under, dir_of. cbn. now rewrite DL.
  - intros parts ->. reflexivity.
Qed.
