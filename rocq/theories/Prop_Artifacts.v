(** Property theorems for artifact repositories (C38-C40). *)
From Coq Require Import Permutation.
From Verif Require Import Base KeyFile Artifacts ArtifactsSpec ArtifactsProofs ArtifactsTop ArtifactsPrune.

(** writing and reading the activation state *)
Theorem C38_round_trip : forall d T T0 env s,
  repo_ok (fun _ _ _ => True) d -> no_stale d -> tidy d ->
  prepare d = Ok T0 ->
  Permutation (map (fun a => (a_name a, a_digest a)) T) (map (fun a => (a_name a, a_digest a)) T0) ->
  (forall n g g', enab T n g -> enab T n g' -> g = g') ->
  commit T (start d env) = (Ok tt, s) ->
  exists T', prepare (s_dir s) = Ok T' /\
    forall n g, (listed T' n g <-> listed T n g) /\
                (enab T' n g <-> enab T n g) /\
                (enab T n g <-> valid_name n /\ hex_digest g /\ points (s_dir s) n n g).
Proof. exact c38_round_trip_ok. Qed.
Print Assumptions C38_round_trip.
Theorem C38_activate : forall T n g m h,
  NoDup (map (fun a => (a_name a, a_digest a)) T) ->
  (forall a, In a T -> a_refs a <= 1) ->
  (forall n g g', enab T n g -> enab T n g' -> g = g') ->
  listed T n g ->
  enab (activate n g T) m h <-> (m = n /\ h = g) \/ (m <> n /\ enab T m h).
Proof. exact c38_activate_ok. Qed.
Print Assumptions C38_activate.

(** pruning *)
Theorem C39_prune : forall w d T T0 env r s,
  NoDup (map fst d) -> prepare d = Ok T0 -> Permutation T T0 ->
  prune w T (start d env) = (r, s) ->
  r <> Abort /\
  (forall k, ~ removable w d k -> assoc k (s_dir s) = assoc k d) /\
  (forall T', r = Ok T' ->
     (forall k, removable w d k -> assoc k (s_dir s) = None) /\
     (forall n g, listed T' n g <-> hex_digest g /\ assoc (apath n g) (s_dir s) <> None)) /\
  (env = [] -> (forall k, w_open w k <> None) -> exists T', r = Ok T').
Proof. exact c39_prune_ok. Qed.
Print Assumptions C39_prune.
Theorem C39_links : forall w d T T0 env r s l n g e,
  NoDup (map fst d) -> prepare d = Ok T0 -> Permutation T T0 ->
  prune w T (start d env) = (r, s) ->
  (forall k t, assoc k d = Some (ELink t) -> assoc k (s_dir s) = Some (ELink t)) /\
  (visible l -> hex_digest g -> points d l n g -> assoc (apath n g) d = Some e ->
   points (s_dir s) l n g /\ assoc (apath n g) (s_dir s) = Some e).
Proof. exact c39_links_ok. Qed.
Print Assumptions C39_links.
Theorem C39_uppercase_refuted :
  exists T s, install_run w0 w0 keep_order [mkimage "foo" "AB" "new"] (start [] []) = (Ok T, s) /\
    points (s_dir s) "foo" "foo" "AB" /\ assoc (apath "foo" "AB") (s_dir s) = None.
Proof. exact c39_uppercase_refuted. Qed.
Print Assumptions C39_uppercase_refuted.
Theorem C39_hidden_link_refuted :
  let d := [(".current", ELink ".artifact-foo-aa"); (".artifact-foo-aa", EData "x")] in
  exists T T' s, prepare d = Ok T /\ prune w0 T (start d []) = (Ok T', s) /\
    points (s_dir s) ".current" "foo" "aa" /\ assoc (apath "foo" "aa") (s_dir s) = None.
Proof. exact c39_hidden_link_refuted. Qed.
Print Assumptions C39_hidden_link_refuted.

(** crash safety of the artifact part of an installation *)
Theorem C40_crash : forall good d c, repo_ok good d -> after_run good d c -> repo_ok good c.
Proof. exact c40_crash_ok. Qed.
Print Assumptions C40_crash.
Theorem C40_history : forall good d c n g,
  repo_ok good d -> history good d c ->
  repo_ok good c /\
  (valid_name n -> hex_digest g -> points c n n g ->
   exists x, assoc (apath n g) c = Some (EData x) /\ good n g x).
Proof. exact c40_history_ok. Qed.
Print Assumptions C40_history.
Theorem C40_old_or_new : forall good d w1 w2 ord imgs env r s c n g,
  repo_ok good d -> no_stale d -> (forall T, Permutation (ord T) T) ->
  Forall (image_good good) imgs -> open_good good w1 d ->
  install_run w1 w2 ord imgs (start d env) = (r, s) -> crash d (s_ops s) c ->
  valid_name n -> hex_digest g -> points d n n g ->
  (In n (map i_name imgs) -> assoc n c <> None) /\
  (assoc n c <> None ->
   exists g', points c n n g' /\
     (g' = g \/ exists i, In i imgs /\ i_name i = n /\ i_digest i = g') /\
     exists x, assoc (apath n g') c = Some (EData x) /\ good n g' x).
Proof. exact c40_old_or_new_ok. Qed.
Print Assumptions C40_old_or_new.
Theorem C40_success : forall good d w1 w2 ord imgs env T s c n g,
  repo_ok good d -> no_stale d -> (forall T, Permutation (ord T) T) ->
  Forall (image_good good) imgs -> imgs <> [] -> open_good good w1 d ->
  install_run w1 w2 ord imgs (start d env) = (Ok T, s) ->
  (forall k, poss_ops (s_ops s) d (on_disk d) k (assoc k c)) ->
  valid_name n -> hex_digest g ->
  (points c n n g <-> exists i, last_image imgs n = Some i /\ i_digest i = g) /\
  (points c n n g -> exists x, assoc (apath n g) c = Some (EData x) /\ good n g x).
Proof. exact c40_success_ok. Qed.
Print Assumptions C40_success.
Theorem C40_live : forall good d w1 w2 ord imgs env r s,
  repo_ok good d -> (forall T, Permutation (ord T) T) ->
  Forall (image_good good) imgs -> open_good good w1 d ->
  install_run w1 w2 ord imgs (start d env) = (r, s) ->
  r <> Abort /\
  (env = [] -> no_stale d -> (forall k, w_open w1 k <> None) -> (forall k, w_open w2 k <> None) ->
   exists T, r = Ok T).
Proof. exact c40_live_ok. Qed.
Print Assumptions C40_live.
Theorem C40_stale_link_refuted :
  let d := [("foo", ELink ".artifact-foo-aa"); (".artifact-foo-aa", EData "old")] in
  let imgs := [mkimage "foo" "bb" "new"] in
  exists r s c, install_run w0 w0 keep_order imgs (start d []) = (r, s) /\ crash d (s_ops s) c /\
    assoc (stale_link "foo") c <> None /\
    fst (install_run w0 w0 keep_order imgs (start c [])) = Err.
Proof. exact c40_stale_link_refuted. Qed.
Print Assumptions C40_stale_link_refuted.
Theorem C40_alias_refuted :
  let d := [("foo", ELink ".artifact-foo-aa"); ("bar", ELink ".artifact-foo-aa"); (".artifact-foo-aa", EData "old")] in
  exists T s, install_run w0 w0 keep_order [mkimage "foo" "bb" "new"] (start d []) = (Ok T, s) /\
    points (s_dir s) "foo" "foo" "aa".
Proof. exact c40_alias_refuted. Qed.
Print Assumptions C40_alias_refuted.
Theorem C40_alias_dangling_refuted :
  let d := [("foo", ELink ".artifact-foo-aa"); ("bar", ELink ".artifact-foo-aa"); (".artifact-foo-aa", EData "old")] in
  exists T s, install_run w0 w0 keep_order [mkimage "app" "cc" "new"] (start d []) = (Ok T, s) /\
    points (s_dir s) "bar" "foo" "aa" /\ assoc (apath "foo" "aa") (s_dir s) = None.
Proof. exact c40_alias_dangling_refuted. Qed.
Print Assumptions C40_alias_dangling_refuted.

(** ** Non-vacuity: a repository with an active artifact, an unused one and left-over temporary data *)
Definition ex_good (n g : string) (c : content) : Prop := c = (n ++ ":" ++ g)%string.
Definition ex_repo : dir :=
  [("foo", ELink ".artifact-foo-aa"); (".artifact-foo-aa", EData "foo:aa"); (".artifact-foo-00", EData "half a fo");
   (".artifact-foo-cc.tmp", EData "fo")].
Definition ex_imgs : list image := [mkimage "foo" "bb" "foo:bb"; mkimage "app" "11" "app:11"].

Example ex_repo_ok : repo_ok ex_good ex_repo.
Proof.
  assert (HP : forall n g k m h, hex_digest g -> parse_artifact k = Some (m, h) -> apath n g = k -> m = n /\ h = g).
  { intros n g k m h Hg Hk E. subst k. rewrite (parse_apath n g Hg) in Hk. injection Hk as -> ->. auto. }
  assert (HN : forall n g k, hex_digest g -> parse_artifact k = None -> apath n g <> k).
  { intros n g k Hg Hk E. subst k. rewrite (parse_apath n g Hg) in Hk. discriminate. }
  assert (HA : forall n g, hex_digest g -> assoc (apath n g) ex_repo <> None ->
            (n = "foo" /\ g = "aa" /\ assoc (apath n g) ex_repo = Some (EData "foo:aa")) \/
            (n = "foo" /\ g = "00" /\ assoc (apath n g) ex_repo = Some (EData "half a fo"))).
  { intros n g Hg. unfold ex_repo. cbn [assoc]. intros H.
    destruct (String.eqb_spec "foo" (apath n g)) as [E|_]; [symmetry in E; apply HN in E; [destruct E|exact Hg|reflexivity]|].
    destruct (String.eqb_spec ".artifact-foo-aa" (apath n g)) as [E|_].
    { symmetry in E. apply HP with (m := "foo") (h := "aa") in E; [|exact Hg|reflexivity]. destruct E as [<- <-]. left. auto. }
    destruct (String.eqb_spec ".artifact-foo-00" (apath n g)) as [E|_].
    { symmetry in E. apply HP with (m := "foo") (h := "00") in E; [|exact Hg|reflexivity]. destruct E as [<- <-]. right. auto. }
    destruct (String.eqb_spec ".artifact-foo-cc.tmp" (apath n g)) as [E|_]; [symmetry in E; apply HN in E; [destruct E|exact Hg|reflexivity]|].
    destruct (H eq_refl). }
  assert (HLk : forall l t, assoc l ex_repo = Some (ELink t) -> l = "foo" /\ t = ".artifact-foo-aa").
  { intros l t. unfold ex_repo. cbn [assoc].
    destruct (String.eqb_spec "foo" l) as [<-|_]; [intros E; injection E as <-; auto|].
    destruct (String.eqb ".artifact-foo-aa" l); [discriminate|]. destruct (String.eqb ".artifact-foo-00" l); [discriminate|].
    destruct (String.eqb ".artifact-foo-cc.tmp" l); discriminate. }
  constructor.
  - repeat constructor; cbn; intuition discriminate.
  - intros n g Hg H. destruct (HA n g Hg H) as [(-> & -> & E)|(-> & -> & E)]; (split; [repeat split; discriminate|eauto]).
  - intros n g t H. apply HLk in H. destruct H as [H _]. unfold atmp, apath in H. discriminate H.
  - intros l n g Hl Hg H. apply HLk in H. destruct H as [-> H]. apply HP with (m := "foo") (h := "aa") in H; [|exact Hg|reflexivity]. left. now destruct H.
  - intros n g Hn Hg H. apply HLk in H. destruct H as [-> H]. apply HP with (m := "foo") (h := "aa") in H; [|exact Hg|reflexivity].
    destruct H as [_ <-]. exists "foo:aa". now split.
Qed.

Example ex_no_stale : no_stale ex_repo.
Proof.
  intros n Hn. pose proof (stale_visible n Hn) as V. unfold ex_repo. cbn [assoc].
  destruct (String.eqb_spec "foo" (stale_link n)) as [E|_].
  { exfalso. apply (stale_not_valid n "foo"); [repeat split; discriminate|now symmetry]. }
  destruct (String.eqb_spec ".artifact-foo-aa" (stale_link n)) as [E|_]; [rewrite <- E in V; discriminate V|].
  destruct (String.eqb_spec ".artifact-foo-00" (stale_link n)) as [E|_]; [rewrite <- E in V; discriminate V|].
  destruct (String.eqb_spec ".artifact-foo-cc.tmp" (stale_link n)) as [E|_]; [rewrite <- E in V; discriminate V|]. reflexivity.
Qed.

Example ex_images : Forall (image_good ex_good) ex_imgs.
Proof. repeat constructor; discriminate. Qed.

Example ex_open : open_good ex_good w0 ex_repo.
Proof. intros n g c H. discriminate H. Qed.

(** the whole run: the old artifact, the incomplete one and the temporary data are removed *)
Example ex_run : exists T s,
  install_run w0 w0 keep_order ex_imgs (start ex_repo []) = (Ok T, s) /\
  s_dir s = [("foo", ELink ".artifact-foo-bb"); (".artifact-foo-bb", EData "foo:bb"); (".artifact-app-11", EData "app:11"); ("app", ELink ".artifact-app-11")].
Proof. eexists. eexists. split; vm_compute; reflexivity. Qed.

(** a run cut off by a failing rename of the temporary artifact keeps the old link *)
Example ex_run_fail : exists s,
  install_run w0 w0 keep_order ex_imgs (start ex_repo [true; true; true; true; true; false]) = (Err, s) /\
  points (s_dir s) "foo" "foo" "aa".
Proof. eexists. split; vm_compute; reflexivity. Qed.

(** pruning the same repository *)
Example ex_prune : exists T T' s,
  prepare ex_repo = Ok T /\ prune w0 T (start ex_repo []) = (Ok T', s) /\
  s_dir s = [("foo", ELink ".artifact-foo-aa"); (".artifact-foo-aa", EData "foo:aa")] /\
  removable w0 ex_repo ".artifact-foo-00" /\ removable w0 ex_repo ".artifact-foo-cc.tmp".
Proof.
  eexists. eexists. eexists. split; [vm_compute; reflexivity|]. split; [vm_compute; reflexivity|]. split; [vm_compute; reflexivity|].
  split; (split; [eexists; reflexivity|]).
  - right. exists "foo", "00". split; [split; [discriminate|reflexivity]|]. split; [reflexivity|]. split; [reflexivity|].
    intros l Hl H. unfold points, ex_repo in H. cbn [assoc] in H. destruct (String.eqb "foo" l); [discriminate|].
    destruct (String.eqb ".artifact-foo-aa" l); [discriminate|]. destruct (String.eqb ".artifact-foo-00" l); [discriminate|].
    destruct (String.eqb ".artifact-foo-cc.tmp" l); discriminate.
  - left. split; [reflexivity|]. intros [H _]. discriminate H.
Qed.

(** the pruned repository (with foo-00 still open) meets the hypotheses of [C38_round_trip]; foo-aa is
    deactivated, foo-00 activated *)
Definition w_busy : world := mkworld (fun _ => []) (fun _ => []) (fun k => Some (String.eqb k ".artifact-foo-00")) false.
Definition ex_clean : dir :=
  [("foo", ELink ".artifact-foo-aa"); (".artifact-foo-aa", EData "foo:aa"); (".artifact-foo-00", EData "half a fo")].
Example ex_clean_ok : repo_ok (fun _ _ _ => True) ex_clean /\ no_stale ex_clean /\ tidy ex_clean.
Proof.
  assert (HA : after_run (fun _ _ _ => True) ex_repo ex_clean).
  { apply (after_run_intro _ _ w_busy w_busy keep_order [] [] (fst (install_run w_busy w_busy keep_order [] (start ex_repo [])))
             (snd (install_run w_busy w_busy keep_order [] (start ex_repo [])))).
    - intros T. apply Permutation_refl.
    - constructor.
    - intros n g c _ _. exact Logic.I.
    - vm_compute. reflexivity.
    - exists [ORemove ".artifact-foo-cc.tmp"], []. split; [vm_compute; reflexivity|]. split.
      + repeat constructor; cbn; intuition discriminate.
      + intros k. now apply (poss_ops_cur [ORemove ".artifact-foo-cc.tmp"] ex_repo). }
  split; [|split].
  - apply (c40_crash_ok _ ex_repo); [|exact HA].
    destruct ex_repo_ok as [A B C D E]. constructor; auto. intros n g Hn Hg Hp. destruct (E n g Hn Hg Hp) as (c & X & _). eauto.
  - intros n Hn. pose proof (ex_no_stale n Hn) as X. unfold ex_clean, ex_repo in *. cbn [assoc] in *.
    destruct (String.eqb "foo" (stale_link n)); [discriminate|]. destruct (String.eqb ".artifact-foo-aa" (stale_link n)); [discriminate|].
    destruct (String.eqb ".artifact-foo-00" (stale_link n)); [discriminate|reflexivity].
  - intros k c H. left. unfold ex_clean in H. cbn [assoc] in H. destruct (String.eqb "foo" k); [discriminate|].
    destruct (String.eqb_spec ".artifact-foo-aa" k) as [<-|_]; [discriminate|].
    destruct (String.eqb_spec ".artifact-foo-00" k) as [<-|_]; [discriminate|discriminate].
Qed.
Example ex_commit : exists T s,
  prepare ex_clean = Ok T /\ commit (activate "foo" "00" T) (start ex_clean []) = (Ok tt, s) /\
  points (s_dir s) "foo" "foo" "00".
Proof. eexists. eexists. split; [vm_compute; reflexivity|]. split; vm_compute; reflexivity. Qed.
