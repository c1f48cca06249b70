(** Scanning the repository directory. *)
From Coq Require Import Permutation.
From Verif Require Import Base BaseLemmas KeyFile KeyFileLemmas Artifacts ArtifactsSpec ArtifactsProofs ArtifactsCrash.

(** the entry is a visible link to this artifact *)
Definition hits (key : string * string) (ke : string * entry) : bool :=
  negb (has_prefix "." (fst ke)) &&
  match snd ke with
  | ELink t => match parse_artifact t with
               | Some (n, g) => String.eqb n (fst key) && String.eqb g (snd key)
               | None => false
               end
  | EData _ => false
  end.

Definition count (key : string * string) (l : dir) : nat := List.length (filter (hits key) l).

Lemma hits_spec n g k e : hits (n, g) (k, e) = true <-> visible k /\ hex_digest g /\ e = ELink (apath n g).
Proof.
  unfold hits, visible. cbn [fst snd]. split.
  - intros H. apply andb_true_iff in H. destruct H as [H1 H2]. apply negb_true_iff in H1. split; [exact H1|].
    destruct e as [t|c]; [|discriminate]. destruct (parse_artifact t) as [[n' g']|] eqn:E; [|discriminate].
    apply andb_true_iff in H2. destruct H2 as [X Y]. apply String.eqb_eq in X, Y. subst. apply parse_spec in E.
    destruct E as [-> E]. auto.
  - intros (H1 & H2 & ->). rewrite H1, (parse_apath _ _ H2), !String.eqb_refl. reflexivity.
Qed.

Lemma map_same {A} (f : A -> A) l : (forall x, In x l -> f x = x) -> map f l = l.
Proof. induction l as [|x l IH]; intros H; cbn [map]; [reflexivity|]. rewrite (H x) by now left. f_equal. apply IH. intros y Hy. apply H. now right. Qed.

Lemma read_link_map T ke : read_link T ke =
  map (fun a => if hits (akey a) ke then mkart (a_name a) (a_digest a) (S (a_refs a)) else a) T.
Proof.
  destruct ke as [k e]. unfold read_link, hits, akey. cbn [fst snd].
  destruct (has_prefix "." k); cbn [negb andb]; [symmetry; now apply map_same|].
  destruct e as [t|c]; [|symmetry; now apply map_same].
  destruct (parse_artifact t) as [[n g]|]; [|symmetry; now apply map_same].
  unfold add_ref. apply map_ext. intros a. unfold same_art.
  rewrite (String.eqb_sym n (a_name a)), (String.eqb_sym g (a_digest a)).
  destruct (String.eqb_spec (a_name a) n) as [->|]; cbn [andb]; [|reflexivity].
  destruct (String.eqb_spec (a_digest a) g) as [->|]; reflexivity.
Qed.

Lemma fold_read l : forall T, fold_left read_link l T =
  map (fun a => mkart (a_name a) (a_digest a) (a_refs a + count (akey a) l)) T.
Proof.
  induction l as [|ke l IH]; intros T; cbn [fold_left].
  - symmetry. apply map_same. intros a _. unfold count. cbn. rewrite Nat.add_0_r. now destruct a.
  - rewrite IH, read_link_map, map_map. apply map_ext. intros a. unfold count. cbn [filter].
    destruct (hits (akey a) ke) eqn:E.
    + change (akey (mkart (a_name a) (a_digest a) (S (a_refs a)))) with (akey a). cbn [a_name a_digest a_refs List.length]. f_equal. lia.
    + reflexivity.
Qed.

Lemma count_pos key l : count key l <> 0 <-> exists ke, In ke l /\ hits key ke = true.
Proof.
  unfold count. split.
  - destruct (filter (hits key) l) as [|x xs] eqn:E; [cbn; lia|]. intros _. exists x.
    apply filter_In. rewrite E. now left.
  - intros (ke & H1 & H2) K. apply length_zero_iff_nil in K. assert (In ke (filter (hits key) l)) by now apply filter_In.
    rewrite K in H. destruct H.
Qed.

(** the artifacts found *)
Definition keys_of (l : dir) : list (string * string) :=
  flat_map (fun ke => match parse_artifact (fst ke) with Some ng => [ng] | None => [] end) l.

Lemma keys_of_in l n g : In (n, g) (keys_of l) <-> hex_digest g /\ In (apath n g) (map fst l).
Proof.
  unfold keys_of. rewrite in_flat_map. split.
  - intros (ke & H1 & H2). destruct (parse_artifact (fst ke)) as [ng|] eqn:E; [|destruct H2].
    destruct H2 as [->|[]]. apply parse_spec in E. destruct E as [E1 E2]. split; [exact E2|]. rewrite <- E1. now apply in_map.
  - intros [Hg H]. apply in_map_iff in H. destruct H as (ke & E & H). exists ke. split; [exact H|]. rewrite E, (parse_apath _ _ Hg). now left.
Qed.

Lemma keys_of_nodup l : NoDup (map fst l) -> NoDup (keys_of l).
Proof.
  induction l as [|[k e] l IH]; intros H; [constructor|]. cbn [map fst] in H. inversion H as [|? ? H1 H2]; subst.
  unfold keys_of. cbn [flat_map fst]. destruct (parse_artifact k) as [[n g]|] eqn:E; cbn [app]; [|now apply IH].
  constructor; [|now apply IH]. intros K. apply (keys_of_in l n g) in K. apply parse_spec in E. destruct E as [-> _]. tauto.
Qed.

Lemma prepare_entries_spec dr : (forall n g, hex_digest g -> is_link dr (apath n g) = false /\ is_link dr (atmp n g) = false) ->
  forall l T, NoDup (map akey T ++ keys_of l) ->
  prepare_entries dr l T = Ok (T ++ map (fun ng => mkart (fst ng) (snd ng) 0) (keys_of l)).
Proof.
  intros HL. induction l as [|[k e] l IH]; intros T ND; cbn [prepare_entries]; [now rewrite app_nil_r|].
  unfold keys_of in *. cbn [flat_map fst] in *. destruct (parse_artifact k) as [[n g]|] eqn:E; cbn [app] in *; [|now apply IH].
  pose proof (parse_spec _ _ _ E) as [_ Hg]. unfold repo_insert. destruct (HL n g Hg) as [-> ->]. cbn [orb].
  destruct (art_find T n g) as [a|] eqn:Ef.
  - exfalso. apply find_some_key in Ef. destruct Ef as [Ha Hk]. apply NoDup_remove_2 in ND. apply ND, in_or_app. left.
    rewrite <- Hk. now apply in_map.
  - cbn [bind]. rewrite IH.
    + rewrite <- app_assoc. reflexivity.
    + rewrite map_app. cbn [map]. rewrite <- app_assoc. exact ND.
Qed.

Definition scan (d : dir) : table := map (fun ng => mkart (fst ng) (snd ng) (count ng d)) (keys_of d).

Lemma prepare_scan good d : repo_ok good d -> prepare d = Ok (scan d).
Proof.
  intros [A B C D E]. unfold prepare. rewrite prepare_entries_spec.
  2:{ intros n g Hg. split; unfold is_link.
    + destruct (assoc (apath n g) d) as [[t|c]|] eqn:K; auto. destruct (B n g Hg) as (_ & c & X); congruence.
    + destruct (assoc (atmp n g) d) as [[t|c]|] eqn:K; auto. now apply C in K. }
  2:{ now apply keys_of_nodup. }
  cbn [bind app]. rewrite fold_read, map_map. f_equal.
Qed.

Lemma scan_keys d : map akey (scan d) = keys_of d.
Proof. unfold scan. rewrite map_map. apply map_same. now intros [n g] _. Qed.

Lemma scan_in d a : In a (scan d) -> In (akey a) (keys_of d) /\ a_refs a = count (akey a) d.
Proof. unfold scan. intros H. apply in_map_iff in H. destruct H as ([n g] & <- & H). auto. Qed.

Lemma assoc_some_key {B} k (l : list (string * B)) : assoc k l <> None <-> In k (map fst l).
Proof.
  split.
  - intros H. destruct (in_dec string_dec k (map fst l)) as [X|X]; [exact X|]. now apply assoc_none in X.
  - intros H K. now apply assoc_none in K.
Qed.

Section scan.
Variable good : string -> string -> content -> Prop.
Variable live : Prop.

Lemma scan_tab d : repo_ok good d -> (live -> forall n, valid_name n -> assoc (stale_link n) d = None) -> tab live (scan d) d.
Proof.
  intros H HL. pose proof H as [A B C D E]. constructor.
  - intros a Ha. apply scan_in in Ha. destruct Ha as [Ha _]. unfold akey in Ha. apply keys_of_in in Ha. destruct Ha as [Hg Ha].
    apply assoc_some_key in Ha. destruct (B _ _ Hg Ha) as [X Y]. auto.
  - rewrite scan_keys. now apply keys_of_nodup.
  - intros n g Hg K. rewrite scan_keys. apply keys_of_in. split; [exact Hg|]. now apply assoc_some_key.
  - exact HL.
Qed.

Lemma scan_refs d a : NoDup (map fst d) -> In a (scan d) ->
  (a_refs a <> 0 <-> exists l, visible l /\ points d l (a_name a) (a_digest a)).
Proof.
  intros ND Ha. apply scan_in in Ha. destruct Ha as [Hk ->]. unfold akey in Hk. apply keys_of_in in Hk. destruct Hk as [Hg _].
  rewrite count_pos. split.
  - intros ([k e] & Hin & Hh). unfold akey in Hh. apply hits_spec in Hh. destruct Hh as (X & _ & ->).
    exists k. split; [exact X|]. now apply assoc_nodup_in.
  - intros (l & Hl & Hp). apply assoc_in in Hp. exists (l, ELink (apath (a_name a) (a_digest a))). split; [exact Hp|].
    unfold akey. now apply hits_spec.
Qed.

Lemma scan_refd d : repo_ok good d -> refd (scan d) (on_disk d).
Proof.
  intros H a Ha K. pose proof (scan_refs d a (ro_nodup _ _ H) Ha) as X. apply X. exists (a_name a).
  split; [|unfold points; unfold on_disk in K; now symmetry].
  apply scan_in in Ha. destruct Ha as [Ha _]. unfold akey in Ha. apply keys_of_in in Ha. destruct Ha as [Hg Ha].
  apply assoc_some_key in Ha. destruct (ro_art _ _ H _ _ Hg Ha) as [Y _]. now apply valid_visible.
Qed.

Lemma scan_ok d a : repo_ok good d -> In a (scan d) -> a_refs a <> 0 -> okP good d (on_disk d) a.
Proof.
  intros H Ha Hr. apply (scan_refs d a (ro_nodup _ _ H) Ha) in Hr. destruct Hr as (l & Hl & Hp).
  apply scan_in in Ha. destruct Ha as [Ha _]. unfold akey in Ha. apply keys_of_in in Ha. destruct Ha as [Hg Ha].
  apply assoc_some_key in Ha. destruct (ro_art _ _ H _ _ Hg Ha) as [Y _].
  destruct (ro_link _ _ H l _ _ Hl Hg Hp) as [->| ->].
  - left. intros v K. unfold on_disk in K. subst v. now apply (ro_good _ _ H).
  - right. eexists. exact Hp.
Qed.
End scan.
