From Verif Require Import Base BaseLemmas KeyFile KeyFileLemmas IndexCache IndexCacheSpec.
Open Scope list_scope.

Lemma dir_name_inj : forall a b, dir_name a = dir_name b -> a = b.
Proof. intros a b H. unfold dir_name in H. now injection H. Qed.
Lemma dir_name_prefix : forall a, has_prefix "hash-" (dir_name a) = true.
Proof. intros a. reflexivity. Qed.
Lemma dir_name_eqb : forall a b, String.eqb (dir_name a) (dir_name b) = String.eqb a b.
Proof. intros a b. destruct (String.eqb_spec a b) as [->|N]; [apply String.eqb_refl|]. apply String.eqb_neq. intros H. now apply dir_name_inj in H. Qed.
Lemma sha_not_unknown : forall d, sha256_text d -> d <> "unknown"%string.
Proof. intros d [L _] ->. discriminate L. Qed.

Lemma replay_app : forall {I} (w : st I) a b, replay w (a ++ b) = replay (replay w a) b.
Proof. intros I w a b. apply fold_left_app. Qed.

(** the events of an installation *)
Definition okev {I} (i : img I) (e : ev I) : Prop :=
  match e with
  | DMem _ | DSave => True
  | DEmpty n | DRemove n | DMkdir n => has_prefix "hash-" n = true
  | DRename a b => has_prefix "hash-" a = true /\ b = dir_name "unknown"
  | DIndex n j => i_index i = Some j /\ n = dir_name (match i_digest i with Some d => d | None => "unknown"%string end)
  end.
Definition nomem {I} (e : ev I) : Prop := match e with DMem _ => False | _ => True end.
Definition nofile {I} (e : ev I) : Prop := match e with DSave => False | _ => True end.

Lemma mem_keep : forall {I} l (w : st I), Forall nomem l -> x_mem (replay w l) = x_mem w.
Proof. intros I l. induction l as [|e l IH]; intros w F; [reflexivity|]. inversion F as [|? ? N F']; subst. cbn [replay fold_left]. fold (replay (apply w e) l). rewrite IH; [|exact F']. destruct e; [destruct N|..]; reflexivity. Qed.

Lemma rm_events : forall {I} (i : img I) r n, has_prefix "hash-" n = true -> Forall (okev i) (rm_tree r n) /\ Forall nomem (@rm_tree I r n).
Proof. intros I i r n H. destruct r; cbn [rm_tree]; split; repeat constructor; exact H. Qed.

Lemma clean_events : forall {I} (i : img I) r w, Forall (okev i) (clean r w) /\ Forall nomem (clean r w).
Proof.
  intros I i r w. unfold clean.
  assert (F : forall x l, Forall (okev i) (flat_map (fun e : string * option I => if has_prefix "hash-" (fst e) && negb (String.eqb (fst e) x) then rm_tree (r (fst e)) (fst e) else []) l)
     /\ Forall nomem (flat_map (fun e : string * option I => if has_prefix "hash-" (fst e) && negb (String.eqb (fst e) x) then @rm_tree I (r (fst e)) (fst e) else []) l)).
  { intros x l. split; apply Forall_flat_map, Forall_forall; intros e _; (destruct (has_prefix "hash-" (fst e)) eqn:P; cbn [andb]; [|constructor]); (destruct (negb _); [|constructor]); now apply (rm_events i). }
  destruct (opt_is _ _); [split; constructor|apply F].
Qed.

Lemma save_events : forall {I} (i : img I) r ok w, Forall (okev i) (save r ok w) /\ Forall nomem (save r ok w).
Proof.
  intros I i r ok w. destruct (clean_events i r w) as [A B]. unfold save. split; (apply Forall_app; split; [assumption|]); destruct ok; repeat constructor.
Qed.
Lemma move_events : forall {I} (i : img I) r b d w, Forall (okev i) (move r b d w) /\ Forall nomem (move r b d w).
Proof.
  intros I i r b d w. unfold move. destruct d as [d|]; [|split; constructor].
  assert (R : Forall (okev i) (if b then [DRename (dir_name d) (dir_name "unknown")] else []) /\ Forall nomem (if b then [@DRename I (dir_name d) (dir_name "unknown")] else [])).
  { destruct b; split; repeat constructor. }
  destruct (rm_events i r (dir_name "unknown") eq_refl) as [A B]. destruct R as [R1 R2].
  destruct (assoc _ _); [|now split]. destruct r; [split; apply Forall_app; now split|now split|now split].
Qed.

Lemma handler_events : forall {I} o (i : img I) w, s_digest (x_mem w) = None -> Forall (okev i) (snd (fst (handler o i w))) /\ Forall nomem (snd (fst (handler o i w))).
Proof.
  intros I o i w D. unfold handler. destruct (i_index i) as [ix|] eqn:X; [|split; constructor]. destruct (o_mkdir o); [|split; constructor].
  unfold data_dir. rewrite D. destruct (o_adaptive o); cbn [fst snd].
  - split; (constructor; [reflexivity || exact Logic.I|]); (destruct (o_export_dir o); [|constructor]); (constructor; [apply dir_name_prefix || exact Logic.I|]); (destruct (o_export o); [|constructor]); constructor; try constructor; try exact X; reflexivity.
  - split; repeat constructor.
Qed.

Lemma attempt_events : forall {I} o (i : img I) w, Forall (okev i) (use_events (attempt o i w)).
Proof.
  intros I o i w. unfold attempt. destruct (clean_events i (o_clean o 0) w) as [C1 C2].
  set (w1 := replay w (clean (o_clean o 0) w)). destruct (_ && _ && _); cbn [use_events fst snd].
  - apply Forall_app. split; [exact C1|]. constructor; [exact Logic.I|]. apply save_events.
  - set (e1 := DMem _ :: _). assert (E1 : Forall (okev i) e1) by (constructor; [exact Logic.I|apply move_events]).
    set (w2 := replay w1 e1). assert (D2 : s_digest (x_mem w2) = None).
    { subst w2 e1. match goal with |- context [DMem ?s :: ?l] => change (DMem s :: l) with ([DMem s] ++ l) end. rewrite replay_app, mem_keep; [reflexivity|]. apply (move_events i). }
    destruct (save_events i (o_clean o 1) (o_save_pending o) w2) as [S1 S2]. destruct (negb (o_save_pending o)).
    + cbn [use_events fst snd]. rewrite !Forall_app. tauto.
    + set (e2 := save (o_clean o 1) (o_save_pending o) w2) in *. set (w3 := replay w2 e2).
      assert (D3 : s_digest (x_mem w3) = None) by (subst w3; now rewrite mem_keep).
      pose proof (handler_events o i w3 D3) as [H1 H2]. destruct (handler o i w3) as [[used e3] ok]. cbn [use_events fst snd] in *.
      rewrite !Forall_app. repeat split; try assumption; [repeat constructor|apply save_events].
Qed.

(** ** other files *)
Lemma foreign_apply : forall {I} (i : img I) w e, okev i e -> foreign (x_dirs (apply w e)) = foreign (x_dirs w).
Proof.
  assert (RM : forall {I} n (l : entries I), has_prefix "hash-" n = true -> foreign (assoc_remove n l) = foreign l).
  { intros I n l H. unfold foreign, assoc_remove. induction l as [|[k v] l IH]; [reflexivity|]. cbn [filter fst]. destruct (String.eqb_spec k n) as [->|N]; cbn [negb].
    - rewrite H. cbn [negb]. exact IH.
    - cbn [filter fst]. now rewrite IH. }
  assert (AD : forall {I} n (v : option I) l, has_prefix "hash-" n = true -> foreign (l ++ [(n, v)]) = foreign l).
  { intros I n v l H. unfold foreign. rewrite filter_app. cbn [filter fst]. rewrite H. cbn [negb]. apply app_nil_r. }
  intros I i w e K. destruct e as [s| |n|n|n|a b|n j]; cbn [apply x_dirs okev] in *; try reflexivity.
  - unfold foreign. induction (x_dirs w) as [|[k v] l IH]; [reflexivity|]. cbn [map filter fst]. destruct (String.eqb_spec k n) as [->|N]; cbn [fst filter]; [rewrite K; cbn [negb]; exact IH|]. now rewrite IH.
  - now apply RM.
  - destruct (assoc n (x_dirs w)); [reflexivity|now apply AD].
  - destruct K as [K ->]. destruct (assoc a (x_dirs w)); [|reflexivity]. rewrite AD by reflexivity. rewrite !RM; [reflexivity|reflexivity|exact K].
  - destruct K as [_ ->]. destruct (assoc _ (x_dirs w)); [|reflexivity]. rewrite AD by apply dir_name_prefix. now apply RM, dir_name_prefix.
Qed.
Lemma foreign_replay : forall {I} (i : img I) l w, Forall (okev i) l -> foreign (x_dirs (replay w l)) = foreign (x_dirs w).
Proof.
  intros I i l. induction l as [|e l IH]; intros w F; [reflexivity|]. inversion F; subst. cbn [replay fold_left]. fold (replay (apply w e) l). rewrite IH; [|assumption]. now apply (foreign_apply i).
Qed.
Lemma seed_events : forall {I} (i : img I) b w, Forall (okev i) (snd (seed_index b w)).
Proof. intros I i b w. unfold seed_index. destruct b; cbn [snd]; constructor; [|constructor]. unfold data_dir, okev. apply dir_name_prefix. Qed.
Lemma Forall_firstn : forall {A} (P : A -> Prop) k l, Forall P l -> Forall P (firstn k l).
Proof. intros A P k. induction k as [|k IH]; intros [|x l] F; cbn [firstn]; try constructor; inversion F; subst; auto. Qed.

Lemma c75_foreign_ok : forall (I : Type) (w : st I) h, foreign (x_dirs (history w h)) = foreign (x_dirs w).
Proof.
  intros I w h. revert w. induction h as [|a h IH]; intros w; [reflexivity|]. cbn [history fold_left]. fold (history (perform w a) h). rewrite IH.
  destruct a as [i o|i o k|b| ]; cbn [perform restart x_dirs].
  - apply (foreign_replay i), attempt_events.
  - apply (foreign_replay i), Forall_firstn, attempt_events.
  - apply (foreign_replay (mkImg None None)), seed_events.
  - reflexivity.
Qed.

(** ** where indexes come from *)
Lemma in_apply : forall {I} (w : st I) e n j, In (n, Some j) (x_dirs (apply w e)) ->
  In (n, Some j) (x_dirs w) \/ (exists a, e = DRename a n /\ In (a, Some j) (x_dirs w)) \/ e = DIndex n j.
Proof.
  intros I w e n j. destruct e as [s| |m|m|m|a b|m i]; cbn [apply x_dirs]; intros H; try (now left).
  - apply in_map_iff in H as ([k v] & E & H). cbn [fst] in E. destruct (String.eqb k m); [discriminate E|]. left. now rewrite <- E.
  - left. now apply filter_In in H.
  - left. destruct (assoc m (x_dirs w)); [exact H|]. apply in_app_iff in H as [H|[H|[]]]; [exact H|discriminate H].
  - destruct (assoc a (x_dirs w)) as [i|] eqn:A; [|now left]. apply in_app_iff in H as [H|[H|[]]].
    + left. apply filter_In in H as [H _]. now apply filter_In in H.
    + injection H as -> ->. right. left. exists a. split; [reflexivity|]. now apply assoc_in.
  - destruct (assoc m (x_dirs w)) eqn:A; [|now left]. apply in_app_iff in H as [H|[H|[]]].
    + left. now apply filter_In in H.
    + injection H as -> ->. right. now right.
Qed.

Definition origin {I} (w0 : st I) (im : list (img I)) (w : st I) : Prop := forall d j, cached w d j ->
  (d <> "unknown"%string -> cached w0 d j \/ exists i, In i im /\ i_digest i = Some d /\ i_index i = Some j) /\
  ((exists d', cached w0 d' j) \/ exists i, In i im /\ i_index i = Some j).

Lemma has_prefix_hash : forall a, has_prefix "hash-" a = true -> exists d, a = dir_name d.
Proof.
  intros a H. unfold dir_name.
  destruct a as [|c1 [|c2 [|c3 [|c4 [|c5 r]]]]]; cbn [has_prefix] in H; try discriminate H; rewrite ?andb_false_r in H; try discriminate H.
  repeat (apply andb_true_iff in H as [? H]). exists r. repeat match goal with H : Ascii.eqb _ _ = true |- _ => apply Ascii.eqb_eq in H; subst end. reflexivity.
Qed.

Lemma origin_apply : forall {I} (w0 w : st I) im i e, In i im \/ (i_index i = None) -> (forall d, i_digest i = Some d -> sha256_text d) -> okev i e -> origin w0 im w -> origin w0 im (apply w e).
Proof.
  intros I w0 w im i e Hi Hd K O d j C. apply in_apply in C as [C|[(a & -> & C)| ->]].
  - now apply O.
  - destruct K as [K E]. apply has_prefix_hash in K as [d' ->]. change ("hash-" ++ d)%string with (dir_name d) in E. apply dir_name_inj in E. subst d.
    split; [intros N; now contradiction N|]. now apply (O d' j).
  - destruct K as [K E]. change ("hash-" ++ d)%string with (dir_name d) in E. apply dir_name_inj in E. destruct Hi as [Hi|Hi]; [|congruence].
    split; [|right; exists i; auto]. intros N. right. exists i. split; [exact Hi|]. split; [|exact K]. destruct (i_digest i); congruence.
Qed.
Lemma origin_replay : forall {I} (w0 : st I) im i, In i im \/ i_index i = None -> (forall d, i_digest i = Some d -> sha256_text d) ->
  forall l w, Forall (okev i) l -> origin w0 im w -> origin w0 im (replay w l).
Proof.
  intros I w0 im i Hi Hd l. induction l as [|e l IH]; intros w F O; [exact O|]. inversion F; subst. cbn [replay fold_left]. apply IH; [assumption|]. now apply (origin_apply w0 w im i).
Qed.

Lemma origin_history : forall {I} (w0 : st I) im, (forall i d, In i im -> i_digest i = Some d -> sha256_text d) -> forall h w, incl (images h) im -> origin w0 im w -> origin w0 im (history w h).
Proof.
  intros I w0 im HD h. induction h as [|a h IH]; intros w S O; [exact O|]. cbn [history fold_left]. unfold images in S. cbn [flat_map] in S. apply incl_app_inv in S as [Sa Sh]. apply IH; [exact Sh|].
  destruct a as [i o|i o k|b| ]; cbn [perform].
  - apply (origin_replay w0 im i); [left; apply Sa; now left| |apply attempt_events|exact O]. intros d. apply HD, Sa. now left.
  - change (origin w0 im (replay w (firstn k (use_events (attempt o i w))))). apply (origin_replay w0 im i); [left; apply Sa; now left| |apply Forall_firstn, attempt_events|exact O]. intros d. apply HD, Sa. now left.
  - apply (origin_replay w0 im (mkImg None None)); [now right|discriminate|apply seed_events|exact O].
  - exact O.
Qed.

Lemma c75_origin_ok : forall (I : Type) (w : st I) h d j, proper_digests h -> cached (history w h) d j ->
  (d <> "unknown"%string -> cached w d j \/ came_with h d j) /\
  ((exists d', cached w d' j) \/ exists i, In i (images h) /\ i_index i = Some j).
Proof.
  intros I w h d j P C. assert (O : origin w (images h) (history w h)).
  { apply origin_history; [exact P|apply incl_refl|]. intros d' j' C'. split; [now left|]. left. now exists d'. }
  now apply O.
Qed.

(** the running slot as a source: its index came with an image of the digest recorded for it *)
Lemma c75_seed_ok : forall (I : Type) (w : st I) h b d j, proper_digests h -> (forall d' j', ~ cached w d' j') ->
  s_digest (x_mem (history w h)) = Some d -> sha256_text d -> fst (seed_index b (history w h)) = Some j -> came_with h d j.
Proof.
  intros I w h b d j P N D S E. unfold seed_index in E. destruct b; [|discriminate E]. cbn [fst] in E. unfold data_dir in E. rewrite D in E.
  destruct (assoc (dir_name d) _) as [u|] eqn:A; [|discriminate E]. subst u. apply assoc_in in A.
  apply in_apply in A as [A|[(a & H & _)|H]]; [|discriminate H|discriminate H].
  destruct (c75_origin_ok I w h d j P A) as [O _]. destruct (O (sha_not_unknown d S)) as [C|C]; [now apply N in C|exact C].
Qed.

(** ** after an installation only the index of the installed image is left *)
Definition no_stale {I} (expected : string) (e : entries I) : Prop := forall n v, In (n, v) e -> has_prefix "hash-" n = true -> n = expected.

Lemma replay_flat_rm : forall {I} (r : string -> rm) (p : string -> bool) (l : entries I) (w : st I), (forall n, r n = RmAll) ->
  forall n v, In (n, v) (x_dirs (replay w (flat_map (fun e => if p (fst e) then rm_tree (r (fst e)) (fst e) else []) l))) ->
    (exists v', In (n, v') (x_dirs w)) /\ (In n (map fst l) -> p n = false).
Proof.
  intros I r p l w R. revert w. induction l as [|[k u] l IH]; intros w n v H.
  - split; [exists v; exact H|]. intros [].
  - cbn [flat_map fst] in H. rewrite replay_app in H. apply IH in H as [[v' H] Q]. destruct (p k) eqn:P.
    + rewrite R in H. cbn [rm_tree replay fold_left apply x_dirs] in H. apply filter_In in H as [H K]. cbn [fst] in K. apply in_map_iff in H as ([k' u'] & E & H). cbn [fst] in E.
      assert (k' = n) as -> by (destruct (String.eqb k' k); now injection E). split; [exists u'; exact H|]. intros [<-|M]; [rewrite String.eqb_refl in K; discriminate K|now apply Q].
    + split; [exists v'; exact H|]. intros [<-|M]; [exact P|now apply Q].
Qed.

Lemma clean_settles : forall {I} r (w : st I) d, (forall n, r n = RmAll) -> opt_is (s_status (x_mem w)) "pending" = false -> s_digest (x_mem w) = Some d ->
  no_stale (dir_name d) (x_dirs (replay w (clean r w))).
Proof.
  intros I r w d R S D n v H P. unfold clean in H. rewrite S, D in H.
  destruct (replay_flat_rm r (fun n => has_prefix "hash-" n && negb (String.eqb n (dir_name d))) (x_dirs w) w R n v H) as [[v' H'] Q].
  specialize (Q ltac:(apply in_map_iff; now exists (n, v'))). rewrite P in Q. cbn [andb] in Q. apply negb_false_iff, String.eqb_eq in Q. exact Q.
Qed.
Lemma save_settles : forall {I} r ok (w : st I) d, (forall n, r n = RmAll) -> opt_is (s_status (x_mem w)) "pending" = false -> s_digest (x_mem w) = Some d ->
  no_stale (dir_name d) (x_dirs (replay w (save r ok w))).
Proof.
  intros I r ok w d R S D. unfold save. rewrite replay_app. destruct ok; [|now apply clean_settles]. change (no_stale (dir_name d) (x_dirs (replay w (clean r w)))). now apply clean_settles.
Qed.

Lemma c75_settled_ok : forall (I : Type) (w : st I) o i d, i_digest i = Some d -> o_save_pending o = true -> (forall k n, o_clean o k n = RmAll) ->
  forall n v, In (n, v) (x_dirs (replay w (use_events (attempt o i w)))) -> has_prefix "hash-" n = true -> n = ("hash-" ++ d)%string.
Proof.
  intros I w o i d D P R. change (no_stale (dir_name d) (x_dirs (replay w (use_events (attempt o i w))))). unfold attempt. rewrite P. cbn [negb].
  set (w1 := replay w (clean (o_clean o 0) w)). destruct (_ && _ && _); cbn [use_events fst snd].
  - rewrite !replay_app. fold w1. apply save_settles; [apply R|reflexivity|exact D].
  - set (e1 := DMem _ :: _). set (w2 := replay w1 e1). set (w3 := replay w2 _).
    destruct (handler o i w3) as [[used e3] ok]. cbn [use_events fst snd]. rewrite !replay_app. fold w1 w2 w3.
    apply save_settles; [apply R| |]; cbn [replay fold_left apply x_mem s_status s_digest]; [destruct ok; reflexivity|exact D].
Qed.

(** ** the index is there when it is needed *)
Lemma assoc_empty_other : forall {I} n m (l : entries I), n <> m -> assoc n (map (fun e => if String.eqb (fst e) m then (fst e, None) else e) l) = assoc n l.
Proof.
  intros I n m l N. induction l as [|[k v] l IH]; [reflexivity|]. cbn [map fst]. destruct (String.eqb_spec k m) as [->|K]; cbn [assoc]; [|now rewrite IH].
  destruct (String.eqb_spec m n) as [E|_]; [subst; now contradiction N|exact IH].
Qed.
Lemma rm_keeps : forall {I} r m n (w : st I), n <> m -> assoc n (x_dirs (replay w (rm_tree r m))) = assoc n (x_dirs w).
Proof.
  intros I r m n w N. destruct r; cbn [rm_tree replay fold_left apply x_dirs]; [|now apply assoc_empty_other|reflexivity].
  rewrite assoc_remove_neq by congruence. now apply assoc_empty_other.
Qed.
Lemma clean_keeps : forall {I} r (w : st I) d, s_digest (x_mem w) = Some d -> assoc (dir_name d) (x_dirs (replay w (clean r w))) = assoc (dir_name d) (x_dirs w).
Proof.
  intros I r w d D. unfold clean. destruct (opt_is _ _); [reflexivity|]. rewrite D. generalize (x_dirs w) at 1. intros l. revert w D.
  induction l as [|[k v] l IH]; intros w D; [reflexivity|]. cbn [flat_map fst]. rewrite replay_app.
  destruct (has_prefix "hash-" k && negb (String.eqb k (dir_name d))) eqn:E.
  - apply andb_true_iff in E as [_ E]. apply negb_true_iff, String.eqb_neq in E. rewrite IH; [apply rm_keeps; congruence|]. rewrite mem_keep; [exact D|]. destruct (r k); repeat constructor.
  - now apply IH.
Qed.
Lemma save_keeps : forall {I} r ok (w : st I) d, s_digest (x_mem w) = Some d -> assoc (dir_name d) (x_dirs (replay w (save r ok w))) = assoc (dir_name d) (x_dirs w).
Proof. intros I r ok w d D. unfold save. rewrite replay_app. transitivity (assoc (dir_name d) (x_dirs (replay w (clean r w)))); [destruct ok; reflexivity|now apply clean_keeps]. Qed.
Lemma save_file : forall {I} r (w : st I), x_file (replay w (save r true w)) = x_mem w.
Proof.
  intros I r w. unfold save. rewrite replay_app. cbn [replay fold_left apply x_file]. fold (replay w (clean r w)). apply mem_keep. apply (clean_events (mkImg None None)).
Qed.
Lemma save_mem : forall {I} r ok (w : st I), x_mem (replay w (save r ok w)) = x_mem w.
Proof. intros I r ok w. apply mem_keep, (save_events (mkImg None None)). Qed.

Definition skips {I} (o : out) (i : img I) (s : stat) : bool := negb (o_same o) && opt_is (s_status s) "ok" && opt_eqb (i_digest i) (s_digest s).

Lemma mem_clean : forall {I} r (w : st I), x_mem (replay w (clean r w)) = x_mem w.
Proof. intros I r w. apply mem_keep, (clean_events (mkImg None None)). Qed.

Lemma attempt_unskipped : forall {I} (w : st I) o i, skips o i (x_mem w) = false -> o_save_pending o = true -> exists w3,
  x_mem w3 = mkSt (Some "pending"%string) None /\
  x_dirs w3 = x_dirs (replay (replay w (clean (o_clean o 0) w)) (move (o_move_rm o) (o_move o) (s_digest (x_mem w)) (replay w (clean (o_clean o 0) w)))) /\
  fst (fst (attempt o i w)) = fst (fst (handler o i w3)) /\
  exists w4, w4 = replay w3 (snd (fst (handler o i w3)) ++ [DMem (mkSt (Some (if snd (handler o i w3) then "ok" else "failed")%string) (i_digest i))]) /\
    replay w (use_events (attempt o i w)) = replay w4 (save (o_clean o 2) (o_save o) w4).
Proof.
  intros I w o i K P. unfold attempt. rewrite P. cbn [negb]. set (w1 := replay w (clean (o_clean o 0) w)).
  assert (M1 : x_mem w1 = x_mem w) by apply mem_clean. rewrite M1. unfold skips in K. rewrite K.
  set (e1 := DMem _ :: _). set (w2 := replay w1 e1). set (w3 := replay w2 _). exists w3.
  assert (M2 : x_mem w2 = mkSt (Some "pending"%string) None).
  { subst w2 e1. match goal with |- context [DMem ?s :: ?l] => change (DMem s :: l) with ([DMem s] ++ l) end. rewrite replay_app, mem_keep; [reflexivity|]. apply (move_events i). }
  assert (M3 : x_mem w3 = mkSt (Some "pending"%string) None) by (subst w3; now rewrite save_mem).
  split; [exact M3|]. split; [|split].
  - subst w3. unfold save, clean at 1. rewrite M2. cbn [s_status]. change (opt_is (Some "pending"%string) "pending") with true. cbv iota. cbn [app replay fold_left apply x_dirs].
    subst w2 e1. match goal with |- context [DMem ?s :: ?l] => change (DMem s :: l) with ([DMem s] ++ l) end. fold (replay w1 ([DMem (mkSt (Some "pending"%string) None)] ++ move (o_move_rm o) (o_move o) (s_digest (x_mem w)) w1)).
    rewrite replay_app. generalize (move (o_move_rm o) (o_move o) (s_digest (x_mem w)) w1). intros l.
    assert (G : forall l (a b : st I), x_dirs a = x_dirs b -> x_dirs (replay a l) = x_dirs (replay b l)).
    { clear. intros l. induction l as [|e l IH]; intros a b E; [exact E|]. cbn [replay fold_left]. apply IH. destruct e; cbn [apply x_dirs]; now rewrite E. }
    apply G. reflexivity.
  - destruct (handler o i w3) as [[used e3] ok]. reflexivity.
  - eexists. split; [reflexivity|]. destruct (handler o i w3) as [[used e3] ok]. cbn [use_events fst snd]. rewrite !replay_app. reflexivity.
Qed.

Lemma c75_recorded : forall {I} (w : st I) o i d ix, i_digest i = Some d -> i_index i = Some ix -> skips o i (x_mem w) = false ->
  o_save_pending o = true -> o_mkdir o = true -> o_adaptive o = true -> o_export_dir o = true -> o_export o = true -> o_hooks o = true -> o_save o = true ->
  let w' := replay w (use_events (attempt o i w)) in
  x_mem w' = mkSt (Some "ok"%string) (Some d) /\ x_file w' = mkSt (Some "ok"%string) (Some d) /\ assoc (dir_name d) (x_dirs w') = Some (Some ix).
Proof.
  intros I w o i d ix D X K P Mk Ad Ed Ex Hk Sv w'. destruct (attempt_unskipped w o i K P) as (w3 & M3 & _ & _ & w4 & E4 & E). unfold w'. rewrite E, Sv.
  assert (M4 : x_mem w4 = mkSt (Some "ok"%string) (Some d)).
  { rewrite E4, replay_app. cbn [replay fold_left apply x_mem]. unfold handler. rewrite X, Mk, Ad. cbn [snd]. now rewrite Hk, D. }
  split; [now rewrite save_mem|]. split; [now rewrite save_file|]. rewrite save_keeps; [|now rewrite M4].
  rewrite E4, replay_app. cbn [replay fold_left apply x_dirs]. unfold handler. rewrite X, Mk, Ad, Ed, Ex, D. cbn [fst snd].
  change (data_dir (x_mem w3) (Some d)) with (dir_name d). set (wa := apply w3 (DMkdir (data_dir (x_mem w3) None))).
  change (replay w3 [DMkdir (data_dir (x_mem w3) None); DMkdir (dir_name d); DIndex (dir_name d) ix]) with (apply (apply wa (DMkdir (dir_name d))) (DIndex (dir_name d) ix)).
  clearbody wa. cbn [apply x_dirs].
  assert (FIN : forall l : entries I, assoc (dir_name d) (assoc_remove (dir_name d) l ++ [(dir_name d, Some ix)]) = Some (Some ix)).
  { intros l. rewrite assoc_app, assoc_remove_eq. cbn [assoc]. now rewrite String.eqb_refl. }
  destruct (assoc (dir_name d) (x_dirs wa)) eqn:A; [rewrite A; apply FIN|]. rewrite assoc_app, A. cbn [assoc]. rewrite String.eqb_refl. apply FIN.
Qed.

Lemma mkdir_keeps : forall {I} (w : st I) n u, assoc n (x_dirs w) = Some u -> assoc n (x_dirs (apply w (DMkdir n))) = Some u.
Proof. intros I w n u A. cbn [apply x_dirs]. now rewrite A. Qed.

Lemma c75_seed_found : forall {I} (w : st I) d ix, s_digest (x_mem w) = Some d -> assoc (dir_name d) (x_dirs w) = Some (Some ix) -> fst (seed_index true w) = Some ix.
Proof.
  intros I w d ix D A. unfold seed_index, data_dir. cbn [fst]. rewrite D, (mkdir_keeps w _ _ A). reflexivity.
Qed.

Lemma c75_target_found : forall {I} (w : st I) d ix o i, sha256_text d -> s_digest (x_mem w) = Some d -> assoc (dir_name d) (x_dirs w) = Some (Some ix) ->
  skips o i (x_mem w) = false -> i_index i <> None -> o_move_rm o = RmAll -> o_move o = true -> o_save_pending o = true -> o_mkdir o = true ->
  fst (fst (attempt o i w)) = Some ix.
Proof.
  intros I w d ix o i S D A K X R Mv P Mk. destruct (attempt_unskipped w o i K P) as (w3 & M3 & D3 & -> & _). rewrite D, R, Mv in D3.
  set (w1 := replay w (clean (o_clean o 0) w)) in *. assert (A1 : assoc (dir_name d) (x_dirs w1) = Some (Some ix)) by (unfold w1; now rewrite clean_keeps).
  assert (NE : dir_name d <> dir_name "unknown") by (intros E; apply dir_name_inj in E; now apply (sha_not_unknown d S)).
  assert (A3 : assoc (dir_name "unknown") (x_dirs w3) = Some (Some ix)).
  { rewrite D3. unfold move.
    assert (RN : forall v : st I, assoc (dir_name d) (x_dirs v) = Some (Some ix) -> assoc (dir_name "unknown") (x_dirs (apply v (DRename (dir_name d) (dir_name "unknown")))) = Some (Some ix)).
    { intros v Av. cbn [apply x_dirs]. rewrite Av, assoc_app, assoc_remove_neq by exact NE. rewrite assoc_remove_eq. cbn [assoc]. now rewrite String.eqb_refl. }
    destruct (assoc (dir_name "unknown") (x_dirs w1)); [rewrite replay_app|]; apply RN; [now rewrite rm_keeps|exact A1]. }
  unfold handler. destruct (i_index i) as [jx|]; [|now contradiction X]. rewrite Mk. unfold data_dir. rewrite M3. cbn [s_digest]. rewrite (mkdir_keeps w3 _ _ A3).
  destruct (o_adaptive o); reflexivity.
Qed.

Lemma c75_reuse_ok : forall (I : Type) (w : st I) o i d ix, i_digest i = Some d -> i_index i = Some ix -> sha256_text d ->
  (o_same o = true \/ s_status (x_mem w) <> Some "ok"%string \/ s_digest (x_mem w) <> Some d) ->
  o_save_pending o = true -> o_mkdir o = true -> o_adaptive o = true -> o_export_dir o = true -> o_export o = true -> o_hooks o = true -> o_save o = true ->
  forall w', w' = history w [Install i o] \/ w' = history w [Install i o; Restart] ->
    fst (seed_index true w') = Some ix /\
    forall o2 i2, i_index i2 <> None -> (o_same o2 = true \/ i_digest i2 <> Some d) -> o_move_rm o2 = RmAll -> o_move o2 = true -> o_save_pending o2 = true -> o_mkdir o2 = true ->
      fst (fst (attempt o2 i2 w')) = Some ix.
Proof.
  intros I w o i d ix D X S N P Mk Ad Ed Ex Hk Sv w' W.
  assert (K : skips o i (x_mem w) = false).
  { unfold skips. destruct N as [-> |[N|N]]; [reflexivity| |].
    - destruct (opt_is (s_status (x_mem w)) "ok") eqn:E; [|now rewrite andb_false_r]. contradiction N. unfold opt_is in E. destruct (s_status (x_mem w)); [|discriminate E]. apply String.eqb_eq in E. now subst.
    - rewrite D. destruct (opt_eqb (Some d) (s_digest (x_mem w))) eqn:E; [|now rewrite andb_false_r]. contradiction N. unfold opt_eqb in E. destruct (s_digest (x_mem w)); [|discriminate E]. apply String.eqb_eq in E. now subst. }
  destruct (c75_recorded w o i d ix D X K P Mk Ad Ed Ex Hk Sv) as (A1 & A2 & A3).
  assert (G : x_mem w' = mkSt (Some "ok"%string) (Some d) /\ assoc (dir_name d) (x_dirs w') = Some (Some ix)).
  { destruct W as [-> | ->]; cbn [history fold_left perform restart x_mem x_dirs]; now split. }
  destruct G as [G1 G2]. split; [apply (c75_seed_found w' d); [now rewrite G1|exact G2]|].
  intros o2 i2 X2 N2 R2 Mv2 P2 Mk2. apply (c75_target_found w' d); auto; [now rewrite G1|]. unfold skips. rewrite G1. cbn [s_digest s_status].
  destruct N2 as [-> |N2]; [reflexivity|]. destruct (opt_eqb (i_digest i2) (Some d)) eqn:E; [|now rewrite andb_false_r]. contradiction N2. unfold opt_eqb in E. destruct (i_digest i2); [|discriminate E]. apply String.eqb_eq in E. now subst.
Qed.
