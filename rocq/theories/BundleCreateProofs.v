(** Proofs for C62. *)
From Verif Require Import Base KeyFile KeyFileLemmas Image Manifest BundleCreate BundleCreateSpec BundleCreateLink BundleCreateFrame.

Lemma mbind_some : forall A B (m : M A) (f : A -> M B) s y s', mbind m f s = (Some y, s') ->
  exists x s1, m s = (Some x, s1) /\ f x s1 = (Some y, s').
Proof. unfold mbind. intros A B m f s y s' H. destruct (m s) as [[x |] s1]; [eauto | discriminate]. Qed.
Lemma guard_some : forall b s x s', guard b s = (Some x, s') -> b = true /\ s' = s.
Proof. intros b s x s' H. destruct b; cbn in H; [injection H as _ <-; auto | discriminate]. Qed.

(** the working directory *)
Definition wdir (s : st) : option dir :=
  match tget (s_root s) [WD] with Some (Dir d) => Some d | _ => None end.

(** [s'] differs from [s] at most in the working directory (there only in names outside [keep]), in
    files created since, in the log and the fakeroot directory *)
Record ext (keep : string -> bool) (s s' : st) : Prop := mkExt {
  x_root : sim notwd (s_root s) (s_root s');
  x_next : s_next s <= s_next s';
  x_cont : forall i, i < s_next s -> s_cont s' i = s_cont s i;
  x_wd : forall w, wdir s = Some w -> exists w', wdir s' = Some w' /\ sim keep w w'
}.
Lemma ext_refl : forall k s, ext k s s.
Proof. intros. split; auto using sim_refl. intros w E. exists w. split; [assumption | apply sim_refl]. Qed.
Lemma ext_trans : forall k a b c, ext k a b -> ext k b c -> ext k a c.
Proof.
  intros k a b c [R1 N1 C1 W1] [R2 N2 C2 W2]. split.
  - eapply sim_trans; eassumption.
  - lia.
  - intros i L. rewrite C2 by lia. auto.
  - intros w E. apply W1 in E as (w1 & E1 & S1). apply W2 in E1 as (w2 & E2 & S2). exists w2. split; [assumption | eapply sim_trans; eassumption].
Qed.
Lemma ext_weaken : forall (k k' : string -> bool) a b, (forall n, k' n = true -> k n = true) -> ext k a b -> ext k' a b.
Proof.
  intros k k' a b H [R N C W]. split; auto. intros w E. apply W in E as (w' & E' & S'). exists w'. split; [assumption |]. eapply sim_weaken; eassumption.
Qed.
Lemma ext_same : forall k s s', s_root s' = s_root s -> s_cont s' = s_cont s -> s_next s' = s_next s -> ext k s s'.
Proof.
  intros k s s' R C N. split; [rewrite R; apply sim_refl | lia | intros; rewrite C; reflexivity |].
  intros w E. exists w. unfold wdir in *. rewrite R. split; [assumption | apply sim_refl].
Qed.

(** a computation that only does this, and leaves the output file alone *)
Definition fr {A} (keep : string -> bool) (m : M A) : Prop :=
  forall s, ext keep s (snd (m s)) /\ s_out (snd (m s)) = s_out s.

Lemma fr_ret : forall A k (x : A), fr k (ret x).
Proof. intros A k x s. split; [apply ext_refl | reflexivity]. Qed.
Lemma fr_fail : forall A k, fr k (@fail A).
Proof. intros A k s. split; [apply ext_refl | reflexivity]. Qed.
Lemma fr_guard : forall k b, fr k (guard b).
Proof. intros k b. destruct b; [apply fr_ret | apply fr_fail]. Qed.
Lemma fr_get : forall k, fr k get.
Proof. intros k s. split; [apply ext_refl | reflexivity]. Qed.
Lemma fr_bind : forall A B k (m : M A) (f : A -> M B), fr k m -> (forall x, fr k (f x)) -> fr k (mbind m f).
Proof.
  intros A B k m f Hm Hf s. unfold mbind. destruct (Hm s) as [E O]. destruct (m s) as [[x |] s1]; cbn [snd] in *.
  - destruct (Hf x s1) as [E' O']. split; [eapply ext_trans; eassumption | congruence].
  - auto.
Qed.
Lemma fr_ask : forall e k c, fr k (ask e c).
Proof. intros e k c s. split; [apply ext_same; reflexivity | reflexivity]. Qed.
Lemma fr_ask_ok : forall e k c, fr k (ask_ok e c).
Proof. intros. apply fr_bind; [apply fr_ask | intro; apply fr_guard]. Qed.
Lemma fr_weaken : forall A (k k' : string -> bool) (m : M A), (forall n, k' n = true -> k n = true) -> fr k m -> fr k' m.
Proof. intros A k k' m H F s. destruct (F s). split; [eapply ext_weaken; eassumption | assumption]. Qed.

(** writing below the working directory *)
Lemma ext_put : forall k s n p x, k n = false -> ext k s (put (WD :: n :: p) x s).
Proof.
  intros k s n p x K. unfold put, set_root. split; cbn [s_root s_next s_cont].
  - apply sim_tput. reflexivity.
  - lia.
  - reflexivity.
  - intros w E. unfold wdir in *. cbn [s_root tget tput] in *.
    destruct (assoc WD (s_root s)) as [[| d | |] |] eqn:A; try discriminate. injection E as ->.
    rewrite assoc_set_eq. eexists. split; [reflexivity |]. apply (sim_tput k w n p x K).
Qed.
Lemma fr_put : forall k n p x, k n = false -> fr k (modify (put (WD :: n :: p) x)).
Proof. intros k n p x K s. split; [apply ext_put; assumption | reflexivity]. Qed.

Lemma fr_mkdir : forall e k n p, k n = false -> fr k (mkdir e (WD :: n :: p)).
Proof.
  intros e k n p K. apply fr_bind; [apply fr_get | intro s]. destruct (tget (s_root s) (WD :: n :: p)); [apply fr_fail |].
  apply fr_bind; [apply fr_ask_ok | intro]. apply fr_put. assumption.
Qed.
Lemma fr_rm : forall e k n p, k n = false -> fr k (rm_tree e (WD :: n :: p)).
Proof.
  intros e k n p K. apply fr_bind; [apply fr_ask | intro a]. destruct (a_ok a); [apply fr_put; assumption |].
  apply fr_bind; [apply fr_put; assumption | intro; apply fr_fail].
Qed.
Lemma fr_set_contents : forall e k n p c, k n = false -> fr k (set_contents e (WD :: n :: p) c).
Proof.
  intros e k n p c K. apply fr_bind; [apply fr_get | intro s0].
  assert (X : fr k (ask_ok e (KWrite (WD :: n :: p)) ;;
         modify (fun s => mkSt (tput (s_root s) (WD :: n :: p) (Some (Reg (s_next s))))
                               (fun i => if Nat.eqb i (s_next s) then c else s_cont s i)
                               (S (s_next s)) (s_out s) (s_fake s) (s_log s)))).
  { apply fr_bind; [apply fr_ask_ok | intro]. intro s. cbn [modify snd]. split; [| reflexivity].
    destruct (ext_put k s n p (Some (Reg (s_next s))) K) as [R N C W]. unfold put, set_root in *.
    cbn [s_root s_next s_cont] in *. split; cbn [s_root s_next s_cont]; try assumption.
    - lia.
    - intros i L. destruct (Nat.eqb_spec i (s_next s)); [lia | reflexivity]. }
  destruct (tget (s_root s0) (WD :: n :: p)) as [[| | |] |]; try exact X. apply fr_fail.
Qed.

Lemma fr_each : forall k f l, (forall i, In i l -> fr k (f i)) -> fr k (each_image f l).
Proof.
  intros k f l. induction l as [| i r IH]; intro H; [apply fr_ret |]. cbn [each_image].
  apply fr_bind; [apply H; left; reflexivity | intro i']. apply fr_bind; [apply IH; intros; apply H; right; assumption | intro; apply fr_ret].
Qed.

(** names that a list of names does not contain *)
Definition out_of (L : list string) (n : string) : bool := negb (existsb (String.eqb n) L).
Lemma out_of_in : forall L n, In n L -> out_of L n = false.
Proof.
  intros L n I. unfold out_of. destruct (existsb (String.eqb n) L) eqn:E; [reflexivity |]. exfalso.
  rewrite <- not_true_iff_false in E. apply E. apply existsb_exists. exists n. split; [assumption | apply String.eqb_refl].
Qed.
Lemma out_of_not : forall L n, ~ In n L -> out_of L n = true.
Proof.
  intros L n I. unfold out_of. destruct (existsb (String.eqb n) L) eqn:E; [| reflexivity]. exfalso. apply I.
  apply existsb_exists in E as (x & J & E). apply String.eqb_eq in E. subst. assumption.
Qed.
Lemma out_of_true : forall L n, out_of L n = true -> ~ In n L.
Proof. intros L n H I. rewrite (out_of_in _ _ I) in H. discriminate. Qed.
Lemma out_of_incl : forall L L' n, incl L L' -> out_of L' n = true -> out_of L n = true.
Proof. intros L L' n I H. apply out_of_not. intro J. apply (out_of_true _ _ H). auto. Qed.

Lemma fr_adaptive : forall e f l L, (existsb (String.eqb "block-hash-index") l = true -> In (f ++ ".block-hash-index")%string L) ->
  fr (out_of L) (adaptive_methods e [WD] f l).
Proof.
  intros e f l L. induction l as [| m r IH]; intro H; [apply fr_ret |]. cbn [adaptive_methods existsb] in *.
  apply fr_bind; [| intro; apply IH; intro E; apply H; rewrite E; apply orb_true_r].
  rewrite String.eqb_sym in H. destruct (String.eqb m "block-hash-index").
  - apply fr_bind; [apply fr_get | intro s]. destruct (open_in e [WD] f s); [| apply fr_fail].
    apply fr_bind; [apply fr_ask_ok | intro]. apply fr_set_contents. apply out_of_in. auto.
  - apply fr_guard.
Qed.

Lemma touched_adaptive : forall i f, im_filename i = Some f -> existsb (String.eqb "block-hash-index") (im_adaptive i) = true ->
  In (f ++ ".block-hash-index")%string (touched_by i).
Proof. intros i f E X. unfold touched_by. rewrite E, X. left. reflexivity. Qed.

Lemma fr_generate : forall e l L, (forall i, In i l -> incl (touched_by i) L) -> fr (out_of L) (generate_adaptive e [WD] l).
Proof.
  intros e l L. induction l as [| i r IH]; intro H; [apply fr_ret |]. cbn [generate_adaptive].
  apply fr_bind; [| intro; apply IH; intros; apply H; right; assumption].
  assert (T := H i (or_introl eq_refl)).
  destruct (im_adaptive i) as [| m ms] eqn:A; [apply fr_ret |]. destruct (im_filename i) as [f |] eqn:F; [| apply fr_fail].
  apply fr_adaptive. intro X. apply T. apply touched_adaptive; [assumption | rewrite A; assumption].
Qed.

Lemma fr_tar : forall e f fake L, In (f ++ ".extracted")%string L -> fr (out_of L) (tar_extract e [WD] f fake).
Proof.
  intros e f fake L I. apply out_of_in in I. unfold tar_extract. cbn [app].
  apply fr_bind; [apply fr_mkdir; assumption | intro]. apply fr_bind; [apply fr_ask | intro a].
  apply fr_bind; [apply fr_put; assumption | intro]. apply fr_bind; [apply fr_guard | intro; apply fr_ret].
Qed.
Lemma fr_composefs : forall e f fake L, In (f ++ ".cfs")%string L -> In ".rauc-cfs-store" L -> fr (out_of L) (composefs e [WD] f fake).
Proof.
  intros e f fake L I J. apply out_of_in in I, J. unfold composefs. cbn [app].
  apply fr_bind; [apply fr_guard | intro]. apply fr_bind; [apply fr_mkdir; assumption | intro].
  apply fr_bind; [apply fr_get | intro s]. apply fr_bind; [| intro].
  { assert (X : fr (out_of L) (mkdir e [WD; ".rauc-cfs-store"])) by (apply fr_mkdir; assumption).
    destruct (tget (s_root s) [WD; ".rauc-cfs-store"]) as [[| | |] |]; try exact X. apply fr_ret. }
  apply fr_bind; [apply fr_ask | intro a]. apply fr_bind; [apply fr_put; assumption | intro].
  apply fr_bind; [apply fr_ask | intro a2]. apply fr_bind; [apply fr_put; assumption | intro].
  apply fr_bind; [apply fr_guard | intro; apply fr_ret].
Qed.
Lemma fr_methods : forall e f fake l L,
  (existsb (String.eqb "composefs") l = true -> In (f ++ ".cfs")%string L /\ In ".rauc-cfs-store" L) ->
  fr (out_of L) (convert_methods e [WD] f fake l).
Proof.
  intros e f fake l L. induction l as [| m r IH]; intro H; [apply fr_ret |]. cbn [convert_methods existsb] in *.
  apply fr_bind; [| intro c; apply fr_bind; [apply IH; intro E; apply H; rewrite E; apply orb_true_r | intro; apply fr_ret]].
  rewrite String.eqb_sym in H. destruct (String.eqb m "tar-extract"); [apply fr_ret |].
  destruct (String.eqb m "composefs"); [destruct (H eq_refl); apply fr_composefs; assumption |].
  destruct (String.eqb m "keep"); [apply fr_ret | apply fr_fail].
Qed.
(** what conversion (not adaptive data) may touch *)
Definition conv_by (i : image) : list string :=
  match im_filename i with
  | None => []
  | Some f => (if existsb (String.eqb "tar-extract") (im_convert i) || existsb (String.eqb "composefs") (im_convert i)
                  then [(f ++ ".extracted")%string] else [])
              ++ (if existsb (String.eqb "composefs") (im_convert i) then [(f ++ ".cfs")%string; ".rauc-cfs-store"] else [])
  end.
Lemma conv_touched : forall i, incl (conv_by i) (touched_by i).
Proof. intros i n H. unfold conv_by, touched_by in *. destruct (im_filename i); [| destruct H]. apply in_or_app. right. assumption. Qed.
Lemma fr_convert0 : forall e kf fake i L, incl (conv_by i ++ dropped_by kf i) L -> fr (out_of L) (convert_image e kf [WD] fake i).
Proof.
  intros e kf fake i L I. unfold convert_image.
  destruct (has_key kf i "converted" && Nat.eqb (List.length (im_converted i)) 0); [apply fr_fail |].
  destruct (has_key kf i "convert") eqn:HK; cbn [negb]; [| apply fr_ret].
  destruct (im_filename i) as [f |] eqn:F; [| apply fr_fail].
  assert (Hext : wants i "tar-extract" || wants i "composefs" = true -> In (f ++ ".extracted")%string L).
  { intro X. apply I. apply in_or_app. left. unfold conv_by. rewrite F. apply in_or_app. left.
    unfold wants in X. rewrite X. left. reflexivity. }
  assert (Hcfs : existsb (String.eqb "composefs") (im_convert i) = true -> In (f ++ ".cfs")%string L /\ In ".rauc-cfs-store" L).
  { intro X. split; apply I; apply in_or_app; left; unfold conv_by; rewrite F, X; apply in_or_app; right; cbn; auto. }
  apply fr_bind.
  { destruct (wants i "tar-extract" || wants i "composefs"); [| apply fr_ret].
    apply fr_bind; [apply fr_tar; auto | intro; apply fr_ret]. }
  intro. unfold mbind at 1. intro s.
  pose proof (fr_methods e f fake (im_convert i) L Hcfs s) as FM.
  destruct (convert_methods e [WD] f fake (im_convert i) s) as [[ck |] s1] eqn:CM; cbn [snd] in *; [| assumption].
  assert (K : snd ck = wants i "keep").
  { clear - CM. unfold wants. revert s ck s1 CM. induction (im_convert i) as [| m r IH]; intros s ck s1 CM; cbn [convert_methods existsb] in *.
    - injection CM as <- _. reflexivity.
    - apply mbind_some in CM as (c & s2 & _ & CM). apply mbind_some in CM as (cr & s3 & CM & R).
      injection R as <- _. cbn [snd]. rewrite (IH _ _ _ CM). rewrite String.eqb_sym. reflexivity. }
  destruct FM as [E1 O1].
  match goal with |- ext _ s (snd (?m s1)) /\ _ => assert (FR : fr (out_of L) m) end.
  { apply fr_bind.
    - destruct (wants i "tar-extract" || wants i "composefs") eqn:W; cbn [andb]; [| apply fr_ret].
      destruct (negb (wants i "tar-extract")); [| apply fr_ret]. apply fr_rm. apply out_of_in. auto.
    - intro. apply fr_bind; [| intro; apply fr_ret]. destruct (snd ck) eqn:SK; [apply fr_ret |].
      assert (D : In f L).
      { apply I. apply in_or_app. right. unfold dropped_by. rewrite F. unfold has_key in HK.
        destruct (kf_get kf (image_group i) "convert"); [| discriminate]. unfold wants in K. rewrite <- K. left. reflexivity. }
      apply fr_bind; [apply fr_get | intro s2]. cbn [app].
      assert (X : fr (out_of L) (ask_ok e (KUnlink [WD; f]) ;; modify (put [WD; f] None))).
      { apply fr_bind; [apply fr_ask_ok | intro; apply fr_put; apply out_of_in; assumption]. }
      destruct (tget (s_root s2) [WD; f]) as [[| | |] |]; try exact X; apply fr_fail. }
  destruct (FR s1) as [E2 O2]. split; [eapply ext_trans; eassumption | congruence].
Qed.
Lemma fr_convert : forall e kf fake i L, incl (touched_by i ++ dropped_by kf i) L -> fr (out_of L) (convert_image e kf [WD] fake i).
Proof.
  intros e kf fake i L I. apply fr_convert0. intros n H. apply I. apply in_app_or in H as [H | H]; apply in_or_app; [left; apply conv_touched |  right]; assumption.
Qed.
Lemma fr_checksum : forall e k d i, fr k (checksum_image e d i).
Proof.
  intros e k d i. unfold checksum_image. destruct (im_filename i) as [f |]; [| apply fr_ret].
  apply fr_bind; [apply fr_get | intro s]. destruct (open_in e d f s); [| apply fr_fail].
  apply fr_bind; [apply fr_ask_ok | intro; apply fr_ret].
Qed.
