(** Proofs for C87. *)
From Coq Require Import Permutation.
From Verif Require Import Base BaseLemmas Slot Install InstallSpec InstallProofs Listing ListingSpec.
Open Scope string_scope.

Lemma same_slot_eq slots s t : unique_names slots -> In s slots -> In t slots -> sl_name s = sl_name t -> s = t.
Proof.
  unfold unique_names. induction slots as [|a r IH]; [intros _ [] |]. intros H Hs Ht E. cbn [map] in H. inversion H as [| ? ? Hn Hr]; subst.
  destruct Hs as [-> | Hs], Ht as [-> | Ht].
  - reflexivity.
  - exfalso. apply Hn. rewrite E. apply in_map. exact Ht.
  - exfalso. apply Hn. rewrite <- E. apply in_map. exact Hs.
  - apply IH; assumption.
Qed.
Lemma root_parent slots s : unique_names slots -> wf_parents slots -> In s slots -> group_root slots s (parent_root (List.length slots) slots s).
Proof. intros Hu Hw Hs. apply parent_root_group; try assumption. destruct slots; [destruct Hs | discriminate]. Qed.

(** children: the slots with this parent *)
Lemma child_iff slots p s : unique_names slots -> wf_parents slots -> In p slots -> In s slots ->
  (negb (same_slot s p) && same_slot (parent_root (List.length slots) slots s) p = true <-> sl_parent s = Some (sl_name p)).
Proof.
  intros Hu Hw Hp Hs. destruct (root_parent slots s Hu Hw Hs) as (Hr & Hrp & Hcase). unfold same_slot. rewrite andb_true_iff, negb_true_iff, String.eqb_eq, String.eqb_neq. split.
  - intros [Hne He]. destruct Hcase as [[_ Er] | E]; [rewrite Er in He; contradiction |]. rewrite E, He. reflexivity.
  - intros E. destruct Hcase as [[E2 _] | E2]; rewrite E in E2; [discriminate |]. injection E2 as E2. split; [| auto].
    intros En. pose proof (same_slot_eq slots s p Hu Hs Hp En) as ->. destruct (Hw p (sl_name p) Hp E) as (r & Ir & En' & Ep).
    pose proof (same_slot_eq slots r p Hu Ir Hp En') as ->. congruence.
Qed.
Lemma children_eq slots p : unique_names slots -> wf_parents slots -> In p slots ->
  all_children slots p = filter (fun s => match sl_parent s with Some q => String.eqb q (sl_name p) | None => false end) slots.
Proof.
  intros Hu Hw Hp. unfold all_children. apply filter_ext_in. intros s Hs. pose proof (child_iff slots p s Hu Hw Hp Hs) as H.
  destruct (sl_parent s) as [q |] eqn:E.
  - destruct (String.eqb q (sl_name p)) eqn:Q.
    + apply String.eqb_eq in Q as ->. apply H. reflexivity.
    + apply String.eqb_neq in Q. apply not_true_iff_false. intros C. apply H in C. congruence.
  - apply not_true_iff_false. intros C. apply H in C. discriminate.
Qed.

(** counting *)
Definition cnt (n : string) (l : list slot) : nat := List.length (filter (String.eqb n) (map sl_name l)).
Lemma cnt_app n a b : cnt n (a ++ b) = cnt n a + cnt n b.
Proof. unfold cnt. rewrite map_app, filter_app, app_length. reflexivity. Qed.
Lemma cnt_cons n s l : cnt n (s :: l) = (if String.eqb n (sl_name s) then 1 else 0) + cnt n l.
Proof. unfold cnt. cbn [map filter]. destruct (String.eqb n (sl_name s)); reflexivity. Qed.
Lemma cnt_notin n l : ~ In n (map sl_name l) -> cnt n l = 0.
Proof.
  induction l as [|a r IH]; [reflexivity |]. intros H. cbn [map] in H. rewrite cnt_cons, IH by (intros C; apply H; right; exact C).
  destruct (String.eqb n (sl_name a)) eqn:E; [| reflexivity]. exfalso. apply H. left. apply String.eqb_eq in E. congruence.
Qed.
Lemma cnt_filter slots f s : unique_names slots -> In s slots -> cnt (sl_name s) (filter f slots) = (if f s then 1 else 0).
Proof.
  unfold unique_names. induction slots as [|a r IH]; [intros _ [] |]. intros Hu Hs. cbn [map] in Hu. inversion Hu as [| ? ? Hn Hr]; subst.
  assert (Hf : forall x, In x (map sl_name (filter f r)) -> In x (map sl_name r)).
  { intros x Hx. apply in_map_iff in Hx as (y & <- & Hy). apply filter_In in Hy as [Hy _]. apply in_map. exact Hy. }
  destruct Hs as [-> | Hs].
  - cbn [filter]. assert (Z : cnt (sl_name s) (filter f r) = 0) by (apply cnt_notin; intros C; apply Hn, Hf, C).
    destruct (f s); [rewrite cnt_cons, String.eqb_refl |]; rewrite Z; reflexivity.
  - cbn [filter]. assert (Hne : String.eqb (sl_name s) (sl_name a) = false).
    { apply String.eqb_neq. intros E. apply Hn. rewrite <- E. apply in_map. exact Hs. }
    destruct (f a); [rewrite cnt_cons, Hne |]; apply IH; assumption.
Qed.
Fixpoint sum (l : list nat) : nat := match l with [] => 0 | a :: r => a + sum r end.
Lemma cnt_concat n l : cnt n (List.concat l) = sum (map (cnt n) l).
Proof. induction l as [|a r IH]; [reflexivity |]. cbn [List.concat map sum]. rewrite cnt_app, IH. reflexivity. Qed.
Lemma concat_flat_map {A B} (f : A -> list (list B)) l : List.concat (flat_map f l) = flat_map (fun a => List.concat (f a)) l.
Proof. induction l as [|a r IH]; [reflexivity |]. cbn [flat_map]. rewrite concat_app, IH. reflexivity. Qed.

(** a class: its own slots, then all slots whose parent is one of them *)
Lemma cnt_block slots l s : cnt (sl_name s) (List.concat (map (fun x => x :: all_children slots x) l))
  = cnt (sl_name s) l + sum (map (fun x => cnt (sl_name s) (all_children slots x)) l).
Proof.
  induction l as [|a r IH]; [reflexivity |]. cbn [map List.concat sum]. change ((a :: all_children slots a) ++ List.concat (map (fun x => x :: all_children slots x) r))%list with (a :: (all_children slots a ++ List.concat (map (fun x => x :: all_children slots x) r)))%list. rewrite !cnt_cons, cnt_app, IH. lia.
Qed.
Definition is_parent_of (s x : slot) : bool := match sl_parent s with Some q => String.eqb q (sl_name x) | None => false end.
Lemma sum_children slots s l : unique_names slots -> wf_parents slots -> In s slots -> (forall x, In x l -> In x slots) ->
  sum (map (fun x => cnt (sl_name s) (all_children slots x)) l) = List.length (filter (is_parent_of s) l).
Proof.
  intros Hu Hw Hs. induction l as [|a r IH]; [reflexivity |]. intros Hl. cbn [map sum filter].
  rewrite IH by (intros x Hx; apply Hl; right; exact Hx). rewrite children_eq by (try assumption; apply Hl; left; reflexivity).
  rewrite (cnt_filter slots _ s Hu Hs). fold (is_parent_of s a). destruct (is_parent_of s a); reflexivity.
Qed.
Lemma parents_cnt s q l : sl_parent s = Some q -> List.length (filter (is_parent_of s) l) = cnt q l.
Proof.
  intros E. induction l as [|a r IH]; [reflexivity |]. cbn [filter]. rewrite cnt_cons. unfold is_parent_of at 1. rewrite E. destruct (String.eqb q (sl_name a)); cbn [List.length]; rewrite IH; reflexivity.
Qed.
Lemma parents_none s l : sl_parent s = None -> List.length (filter (is_parent_of s) l) = 0.
Proof. intros E. induction l as [|a r IH]; [reflexivity |]. cbn [filter]. unfold is_parent_of at 1. rewrite E. exact IH. Qed.

Lemma cnt_class slots c s : unique_names slots -> In s slots -> cnt (sl_name s) (all_of_class slots c) = (if String.eqb (sl_class s) c then 1 else 0).
Proof. intros Hu Hs. unfold all_of_class. apply (cnt_filter slots (fun s => String.eqb (sl_class s) c) s Hu Hs). Qed.
Lemma sum_classes l c : NoDup l -> sum (map (fun x => if String.eqb c x then 1 else 0) l) = if in_dec string_dec c l then 1 else 0.
Proof.
  induction l as [|a r IH]; [reflexivity |]. intros H. inversion H as [| ? ? Hn Hr]; subst. cbn [map sum]. rewrite (IH Hr).
  destruct (String.eqb c a) eqn:E.
  - apply String.eqb_eq in E as ->. destruct (in_dec string_dec a r); [contradiction |]. destruct (in_dec string_dec a (a :: r)); [reflexivity |]. exfalso. apply n0. left. reflexivity.
  - apply String.eqb_neq in E. destruct (in_dec string_dec c r), (in_dec string_dec c (a :: r)); try reflexivity.
    + exfalso. apply n. right. assumption.
    + exfalso. destruct i; [congruence | contradiction].
Qed.
Lemma sum_map_add {A} (f g : A -> nat) l : sum (map (fun x => f x + g x) l) = sum (map f l) + sum (map g l).
Proof. induction l as [|a r IH]; [reflexivity |]. cbn [map sum]. rewrite IH. lia. Qed.
Lemma sum_map_ext {A} (f g : A -> nat) l : (forall x, In x l -> f x = g x) -> sum (map f l) = sum (map g l).
Proof. intros H. f_equal. apply map_ext_in. exact H. Qed.

Lemma shown_sum slots s : unique_names slots -> wf_parents slots -> In s slots ->
  shown slots (sl_name s) = sum (map (fun c => cnt (sl_name s) (all_of_class slots c)) (root_classes slots))
    + match sl_parent s with Some q => sum (map (fun c => cnt q (all_of_class slots c)) (root_classes slots)) | None => 0 end.
Proof.
  intros Hu Hw Hs. unfold shown, listing, blocks. fold (cnt (sl_name s) (List.concat (flat_map (fun c => map (fun x => x :: all_children slots x) (all_of_class slots c)) (root_classes slots)))).
  rewrite concat_flat_map, flat_map_concat_map, cnt_concat, map_map.
  assert (E : forall c, cnt (sl_name s) (List.concat (map (fun x => x :: all_children slots x) (all_of_class slots c)))
     = cnt (sl_name s) (all_of_class slots c) + match sl_parent s with Some q => cnt q (all_of_class slots c) | None => 0 end).
  { intros c. rewrite cnt_block, sum_children; try assumption; [| intros x Hx; apply filter_In in Hx as [Hx _]; exact Hx].
    destruct (sl_parent s) as [q |] eqn:P; [rewrite (parents_cnt s q _ P) | rewrite (parents_none s _ P)]; reflexivity. }
  rewrite (sum_map_ext _ _ _ (fun c _ => E c)), sum_map_add. f_equal. destruct (sl_parent s); [reflexivity |].
  induction (root_classes slots) as [|a r IH]; [reflexivity |]. cbn [map sum]. exact IH.
Qed.
Lemma in_classes slots s : unique_names slots -> In s slots ->
  sum (map (fun c => cnt (sl_name s) (all_of_class slots c)) (root_classes slots)) = if in_dec string_dec (sl_class s) (root_classes slots) then 1 else 0.
Proof.
  intros Hu Hs. rewrite <- sum_classes by apply root_classes_spec. apply sum_map_ext. intros c _. apply cnt_class; assumption.
Qed.
Lemma class_root_iff slots s : In (sl_class s) (root_classes slots) <-> class_has_root slots s.
Proof. apply root_classes_spec. Qed.
(** a slot without parent is shown once, one with a parent below it, and once more if its class has top-level slots *)
Lemma shown_ok slots s : unique_names slots -> wf_parents slots -> In s slots ->
  (sl_parent s = None -> shown slots (sl_name s) = 1) /\
  (forall q, sl_parent s = Some q -> (class_has_root slots s -> shown slots (sl_name s) = 2) /\ (~ class_has_root slots s -> shown slots (sl_name s) = 1)).
Proof.
  intros Hu Hw Hs. pose proof (shown_sum slots s Hu Hw Hs) as E. rewrite (in_classes slots s Hu Hs) in E. split.
  - intros P. rewrite P in E. destruct (in_dec string_dec (sl_class s) (root_classes slots)) as [| N]; [exact E |]. exfalso. apply N, class_root_iff. exists s. auto.
  - intros q P. rewrite P in E. destruct (Hw s q Hs P) as (r & Ir & En & Ep). subst q. rewrite (in_classes slots r Hu Ir) in E.
    destruct (in_dec string_dec (sl_class r) (root_classes slots)) as [| N]; [| exfalso; apply N, class_root_iff; exists r; auto].
    destruct (in_dec string_dec (sl_class s) (root_classes slots)) as [Hi | Hi]; split; intros C.
    + exact E.
    + exfalso. apply C, class_root_iff, Hi.
    + exfalso. apply Hi, class_root_iff, C.
    + exact E.
Qed.
Lemma listing_in slots s : In s (listing slots) -> In s slots.
Proof.
  unfold listing, blocks. intros H. apply in_concat in H as (b & Hb & Hs). apply in_flat_map in Hb as (c & _ & Hb). apply in_map_iff in Hb as (x & <- & Hx). apply filter_In in Hx as [Hx _].
  destruct Hs as [<- | Hs]; [exact Hx |]. apply filter_In in Hs as [Hs _]. exact Hs.
Qed.

Theorem c87_shown_ok : forall slots s, unique_names slots -> wf_parents slots -> In s slots ->
  (sl_parent s = None -> shown slots (sl_name s) = 1) /\
  (forall q, sl_parent s = Some q -> (class_has_root slots s -> shown slots (sl_name s) = 2) /\ (~ class_has_root slots s -> shown slots (sl_name s) = 1)).
Proof. exact shown_ok. Qed.

Lemma nodup_cnt l : (forall n, In n (map sl_name l) -> cnt n l = 1) -> NoDup (map sl_name l).
Proof.
  induction l as [|a r IH]; [constructor |]. intros H. cbn [map]. assert (Hn : ~ In (sl_name a) (map sl_name r)).
  { intros C. pose proof (H (sl_name a) (or_introl eq_refl)) as E. rewrite cnt_cons, String.eqb_refl in E.
    assert (Z : cnt (sl_name a) r <> 0).
    { unfold cnt. intros Z. apply length_zero_iff_nil in Z. assert (X : In (sl_name a) (filter (String.eqb (sl_name a)) (map sl_name r))) by (apply filter_In; split; [exact C | apply String.eqb_refl]). rewrite Z in X. destruct X. }
    lia. }
  constructor; [exact Hn |]. apply IH. intros n Hi. pose proof (H n (or_intror Hi)) as E. rewrite cnt_cons in E.
  destruct (String.eqb n (sl_name a)) eqn:Q; [| exact E]. apply String.eqb_eq in Q as ->. contradiction.
Qed.
Theorem c87_each_once_ok : forall slots, unique_names slots -> wf_parents slots -> unmixed slots -> Permutation (listing slots) slots.
Proof.
  intros slots Hu Hw Hm.
  assert (H1 : forall s, In s slots -> shown slots (sl_name s) = 1).
  { intros s Hs. destruct (shown_ok slots s Hu Hw Hs) as [A B]. destruct (sl_parent s) as [q |] eqn:P; [| apply A; reflexivity]. apply (B q eq_refl). exact (Hm s q Hs P). }
  apply NoDup_Permutation.
  - apply (NoDup_map_inv sl_name). apply nodup_cnt. intros n Hn. apply in_map_iff in Hn as (s & <- & Hs). apply H1, listing_in, Hs.
  - apply (NoDup_map_inv sl_name). exact Hu.
  - intros s. split; [apply listing_in |]. intros Hs. pose proof (H1 s Hs) as E. unfold shown in E.
    destruct (in_dec string_dec (sl_name s) (map sl_name (listing slots))) as [C | C].
    + apply in_map_iff in C as (t & Et & Ht). rewrite (same_slot_eq slots s t Hu Hs (listing_in slots t Ht) (eq_sym Et)). exact Ht.
    + fold (cnt (sl_name s) (listing slots)) in E. rewrite (cnt_notin _ _ C) in E. discriminate.
Qed.
(** a block: a slot and, in any order, exactly the slots which have it as parent; every top-level slot has one block *)
Theorem c87_blocks_ok : forall slots b, unique_names slots -> wf_parents slots -> In b (blocks slots) ->
  exists r c, b = r :: c /\ In r slots /\ (forall s, In s c <-> In s slots /\ sl_parent s = Some (sl_name r)) /\ NoDup (map sl_name b).
Proof.
  intros slots b Hu Hw H. unfold blocks in H. apply in_flat_map in H as (k & _ & H). apply in_map_iff in H as (r & <- & H). apply filter_In in H as [Hr _].
  exists r, (all_children slots r). split; [reflexivity |]. split; [exact Hr |]. assert (Hc : forall s, In s (all_children slots r) <-> In s slots /\ sl_parent s = Some (sl_name r)).
  { intros s. unfold all_children. rewrite filter_In. split; intros [Hs Hp]; (split; [exact Hs |]); apply (child_iff slots r s Hu Hw Hr Hs); exact Hp. }
  split; [exact Hc |]. cbn [map]. constructor.
  - intros C. apply in_map_iff in C as (t & Et & Ht). pose proof Ht as Ht2. apply Hc in Ht2 as [It Pt]. destruct (Hw t _ It Pt) as (x & Ix & En & Ep).
    rewrite (same_slot_eq slots t r Hu It Hr Et) in Pt. rewrite (same_slot_eq slots x r Hu Ix Hr En) in Ep. congruence.
  - apply nodup_cnt. intros n Hn. apply in_map_iff in Hn as (t & <- & Ht). pose proof Ht as Ht2. apply Hc in Ht2 as [It _]. unfold all_children. rewrite (cnt_filter slots _ t Hu It).
    unfold all_children in Ht. apply filter_In in Ht as [_ Ht]. rewrite Ht. reflexivity.
Qed.

(** the text *)
Lemma filter_flat_map {A B} (f : B -> bool) (g : A -> list B) l : filter f (flat_map g l) = flat_map (fun x => filter f (g x)) l.
Proof. induction l as [|a r IH]; [reflexivity |]. cbn [flat_map]. rewrite filter_app, IH. reflexivity. Qed.
Lemma flat_map_nil {A B} (g : A -> list B) l : (forall x, g x = []) -> flat_map g l = [].
Proof. intros H. induction l as [|a r IH]; [reflexivity |]. cbn [flat_map]. rewrite H, IH. reflexivity. Qed.
Lemma filter_none {A} (f : A -> bool) l : (forall x, In x l -> f x = false) -> filter f l = [].
Proof. intros H. induction l as [|a r IH]; [reflexivity |]. cbn [filter]. rewrite (H a (or_introl eq_refl)). apply IH. intros x Hx. apply H. right. exact Hx. Qed.
Lemma not_marked utf8 a t : Ascii.eqb a (ascii_of_nat 226) = false -> Ascii.eqb a (ascii_of_nat 27) = false -> has_prefix (mark_primary utf8) (String a t) = false.
Proof. intros H1 H2. rewrite Ascii.eqb_sym in H1. rewrite Ascii.eqb_sym in H2. destruct utf8; unfold mark_primary, utf8_of, KBLD, esc; cbn [append has_prefix]; rewrite ?H1, ?H2; reflexivity. Qed.
Lemma app_marked utf8 t : has_prefix (mark_primary utf8) (mark_primary utf8 ++ t) = true.
Proof. destruct utf8; reflexivity. Qed.
Lemma other_not_marked utf8 t : has_prefix (mark_primary utf8) (mark_other utf8 ++ t) = false.
Proof. destruct utf8; reflexivity. Qed.
Definition has_bootname (s : slot) : bool := match sl_bootname s with Some _ => true | None => false end.
Lemma first_marked utf8 p s : has_prefix (mark_primary utf8) (first_line utf8 p s) = has_bootname s && is_primary p s.
Proof.
  unfold first_line, has_bootname. destruct (sl_bootname s); [destruct (is_primary p s) |].
  - apply app_marked.
  - apply other_not_marked.
  - apply not_marked; reflexivity.
Qed.
Lemma opt_not_marked utf8 pre v : Forall (fun l => has_prefix (mark_primary utf8) l = false) (opt_line ("  " ++ pre) v).
Proof. destruct v; [| constructor]. constructor; [| constructor]. apply not_marked; reflexivity. Qed.
Lemma map_not_marked utf8 l : Forall (fun l => has_prefix (mark_primary utf8) l = false) (map (fun x => ("  " ++ x)%string) l).
Proof. induction l as [|a r IH]; constructor; [apply not_marked; reflexivity | exact IH]. Qed.
Lemma map_not_marked6 utf8 l : Forall (fun l => has_prefix (mark_primary utf8) l = false) (map (fun x => ("      " ++ x)%string) l).
Proof. induction l as [|a r IH]; constructor; [apply not_marked; reflexivity | exact IH]. Qed.
Lemma forall_filter {A} (f : A -> bool) l : Forall (fun x => f x = false) l -> filter f l = [].
Proof. intros H. rewrite Forall_forall in H. apply filter_none. exact H. Qed.
Lemma slot_marked utf8 d p s : marked utf8 (slot_lines utf8 d p s) = if has_bootname s && is_primary p s then [first_line utf8 p s] else [].
Proof.
  unfold marked, slot_lines. cbn [filter]. rewrite first_marked. rewrite !filter_app.
  rewrite (forall_filter _ _ (opt_not_marked utf8 ("    bootname: " ++ KBLU) _)), (forall_filter _ _ (opt_not_marked utf8 "    description: " _)), (forall_filter _ _ (opt_not_marked utf8 "    mounted: " _)).
  assert (E1 : filter (has_prefix (mark_primary utf8)) (match sl_bootname s with Some _ => [("      boot status: " ++ (match p_boot p (sl_name s) with BGood => KGRN | _ => KRED end) ++ boot_str (p_boot p (sl_name s)) ++ KNRM)%string] | None => [] end) = []).
  { apply forall_filter. destruct (sl_bootname s); [constructor; [| constructor] | constructor]. apply not_marked; reflexivity. }
  rewrite E1. assert (E2 : filter (has_prefix (mark_primary utf8)) (if d then map (fun l => ("      " ++ l)%string) (p_details p (sl_name s)) else []) = []).
  { apply forall_filter. destruct d; [apply map_not_marked6 | constructor]. }
  rewrite E2. destruct (has_bootname s && is_primary p s); reflexivity.
Qed.
Lemma blank_not_marked utf8 : has_prefix (mark_primary utf8) "" = false.
Proof. destruct utf8; reflexivity. Qed.
Lemma repo_marked utf8 r : filter (has_prefix (mark_primary utf8)) (repo_lines r) = [].
Proof.
  unfold repo_lines. cbn [filter]. assert (E : has_prefix (mark_primary utf8) (KBLD ++ "[" ++ rp_name r ++ "]" ++ KNRM ++ " (" ++ rp_path r ++ ")")%string = false) by (destruct utf8; reflexivity).
  rewrite E, filter_app, (forall_filter _ _ (map_not_marked utf8 _)). cbn [filter app]. rewrite blank_not_marked. reflexivity.
Qed.
Lemma flat_concat {A B} (f : A -> list B) (l : list (list A)) : flat_map (fun b => flat_map f b) l = flat_map f (List.concat l).
Proof. induction l as [|a r IH]; [reflexivity |]. cbn [flat_map List.concat]. rewrite flat_map_app, IH. reflexivity. Qed.
Lemma output_marked utf8 d p : marked utf8 (output utf8 d p) = flat_map (fun s => if has_bootname s && is_primary p s then [first_line utf8 p s] else []) (listing (p_slots p)).
Proof.
  unfold marked, output. rewrite !filter_app.
  match goal with |- (filter ?f ?h ++ _)%list = _ => assert (H : filter f h = []) end.
  { apply forall_filter. repeat (constructor; [first [apply not_marked; reflexivity | apply blank_not_marked | destruct (p_primary p); apply not_marked; reflexivity] |]). constructor. }
  rewrite H. match goal with |- ([] ++ _ ++ filter ?f ?r)%list = _ => assert (R : filter f r = []) end.
  { destruct (p_repos p) as [| r0 rs]; [reflexivity |]. cbn [filter]. rewrite filter_flat_map, flat_map_nil by (intros r; apply repo_marked).
    assert (E : has_prefix (mark_primary utf8) "=== Artifact Repo States ===" = false) by (destruct utf8; reflexivity). rewrite E. reflexivity. }
  rewrite R, app_nil_r. cbn [app]. rewrite filter_flat_map. unfold listing. rewrite <- flat_concat. apply flat_map_ext. intros b. rewrite filter_app, filter_flat_map.
  cbn [filter]. rewrite blank_not_marked, app_nil_r. apply flat_map_ext. intros s. apply slot_marked.
Qed.

(** the lines with the mark are the first lines of the primary slot's entries *)
Lemma primary_entries utf8 p q l slots : p_primary p = Some q -> unique_names slots -> In q slots -> (forall s, In s l -> In s slots) ->
  flat_map (fun s => if has_bootname s && is_primary p s then [first_line utf8 p s] else []) l
  = if has_bootname q then repeat (first_line utf8 p q) (cnt (sl_name q) l) else [].
Proof.
  intros E Hu Hq. induction l as [|a r IH]; [intros _; destruct (has_bootname q); reflexivity |]. intros Hl. cbn [flat_map]. rewrite IH by (intros x Hx; apply Hl; right; exact Hx). rewrite cnt_cons.
  unfold is_primary. rewrite E. unfold same_slot. rewrite String.eqb_sym. destruct (String.eqb (sl_name q) (sl_name a)) eqn:Q.
  - apply String.eqb_eq in Q. rewrite (same_slot_eq slots q a Hu Hq (Hl a (or_introl eq_refl)) Q). rewrite andb_true_r. destruct (has_bootname a); reflexivity.
  - rewrite andb_false_r. destruct (has_bootname q); reflexivity.
Qed.
Theorem c87_mark_ok : forall utf8 d p, unique_names (p_slots p) -> wf_parents (p_slots p) -> (forall q, p_primary p = Some q -> In q (p_slots p)) ->
  (forall l, In l (marked utf8 (output utf8 d p)) -> exists q b, p_primary p = Some q /\ sl_bootname q = Some b /\ l = first_line utf8 p q) /\
  (forall q b, p_primary p = Some q -> sl_bootname q = Some b ->
     marked utf8 (output utf8 d p) = repeat (first_line utf8 p q) (shown (p_slots p) (sl_name q)) /\
     (sl_parent q = None -> marked utf8 (output utf8 d p) = [first_line utf8 p q])).
Proof.
  intros utf8 d p Hu Hw Hp. rewrite output_marked. split.
  - intros l Hl. apply in_flat_map in Hl as (s & Hs & Hl). unfold has_bootname, is_primary in Hl. destruct (sl_bootname s) as [b |] eqn:B; [| destruct Hl]. destruct (p_primary p) as [q |] eqn:Q; [| destruct Hl].
    cbn [andb] in Hl. destruct (same_slot s q) eqn:E; [| destruct Hl]. destruct Hl as [<- | []]. apply String.eqb_eq in E.
    pose proof (same_slot_eq _ s q Hu (listing_in _ _ Hs) (Hp q eq_refl) E) as ->. exists q, b. auto.
  - intros q b Q B. rewrite (primary_entries utf8 p q _ (p_slots p) Q Hu (Hp q Q) (listing_in _)). unfold has_bootname. rewrite B. split; [reflexivity |]. intros P.
    destruct (shown_ok _ q Hu Hw (Hp q Q)) as [A _]. change (cnt (sl_name q) (listing (p_slots p))) with (shown (p_slots p) (sl_name q)). rewrite (A P). reflexivity.
Qed.

Lemma plain_app a b : no_esc a -> plain false (a ++ b) = (a ++ plain false b)%string.
Proof.
  unfold no_esc. induction a as [|c r IH]; [reflexivity |]. intros H. cbn [no_char] in H. apply andb_true_iff in H as [H1 H2]. cbn [append plain].
  apply negb_true_iff in H1. rewrite H1. f_equal. apply IH, H2.
Qed.
Theorem c87_line_ok : forall utf8 p s, no_esc (sl_name s) -> no_esc (sl_device s) -> no_esc (sl_type s) ->
  plain false (first_line utf8 p s) = expected_line utf8 (is_primary p s) s (state_name (p_state p (sl_name s))).
Proof.
  intros utf8 p s H1 H2 H3. unfold first_line, expected_line.
  assert (Hst : forall x, plain false (KNRM ++ " (" ++ sl_device s ++ ", " ++ sl_type s ++ ", " ++ x) = (" (" ++ sl_device s ++ ", " ++ sl_type s ++ ", " ++ plain false x)%string).
  { intros x. change (KNRM ++ " (" ++ sl_device s ++ ", " ++ sl_type s ++ ", " ++ x)%string with (KNRM ++ (" (" ++ (sl_device s ++ (", " ++ (sl_type s ++ (", " ++ x))))))%string.
    change (plain false (KNRM ++ (" (" ++ (sl_device s ++ (", " ++ (sl_type s ++ (", " ++ x)))))))%string with (plain false (" (" ++ (sl_device s ++ (", " ++ (sl_type s ++ (", " ++ x))))))%string.
    rewrite plain_app by reflexivity. rewrite (plain_app (sl_device s)) by exact H2. rewrite (plain_app ", ") by reflexivity. rewrite (plain_app (sl_type s)) by exact H3. rewrite (plain_app ", ") by reflexivity. reflexivity. }
  assert (Hn : forall x, plain false (KBLD ++ "[" ++ sl_name s ++ "]" ++ x) = ("[" ++ sl_name s ++ "]" ++ plain false x)%string).
  { intros x. change (plain false (KBLD ++ "[" ++ sl_name s ++ "]" ++ x)) with (String "[" (plain false (sl_name s ++ ("]" ++ x)%string)))%string. rewrite plain_app by exact H1. rewrite (plain_app "]") by reflexivity. reflexivity. }
  assert (Hm : forall x, plain false ((match sl_bootname s with Some _ => if is_primary p s then mark_primary utf8 else mark_other utf8 | None => " " end) ++ x)
     = ((match sl_bootname s with None => " " | Some _ => if utf8 then (if is_primary p s then utf8_of 226 143 186 else utf8_of 226 151 139) else if is_primary p s then "x" else "o" end) ++ plain false x)%string).
  { intros x. destruct (sl_bootname s), (is_primary p s), utf8; reflexivity. }
  assert (Hp : forall x, plain false ((match sl_parent s with Some _ => "   " | None => " " end) ++ x) = ((match sl_parent s with None => " " | Some _ => "   " end) ++ plain false x)%string).
  { intros x. destruct (sl_parent s); reflexivity. }
  assert (Hg1 : forall x, plain false ((match p_state p (sl_name s) with ST_ACTIVE | ST_BOOTED => KGRN | ST_INACTIVE => "" end) ++ x) = plain false x) by (intros x; destruct (p_state p (sl_name s)); reflexivity).
  assert (Hg2 : forall x, plain false ((match p_state p (sl_name s) with ST_BOOTED => KGRN | _ => "" end) ++ x) = plain false x) by (intros x; destruct (p_state p (sl_name s)); reflexivity).
  rewrite Hm, Hp, Hg1, Hg2, Hn, Hst. destruct (p_state p (sl_name s)); reflexivity.
Qed.

Definition s_root : slot := mkSlot "rootfs.0" "rootfs" "/dev/a" "ext4" (Some "A") None false false.
Definition s_app0 : slot := mkSlot "appfs.0" "appfs" "/dev/b" "ext4" None (Some "rootfs.0") false false.
Definition s_app1 : slot := mkSlot "appfs.1" "appfs" "/dev/c" "ext4" None None false false.
Lemma mixed_meets : unique_names [s_root; s_app0; s_app1] /\ wf_parents [s_root; s_app0; s_app1].
Proof.
  split.
  - unfold unique_names. repeat constructor; cbn; intuition discriminate.
  - intros s p [<- | [<- | [<- | []]]] E; try discriminate E. injection E as <-. exists s_root. split; [left; reflexivity |]. split; reflexivity.
Qed.
Theorem c87_once_refuted : ~ (forall slots, unique_names slots -> wf_parents slots -> Permutation (listing slots) slots).
Proof. intros H. pose proof (Permutation_length (H _ (proj1 mixed_meets) (proj2 mixed_meets))) as L. discriminate L. Qed.
Lemma listed_first utf8 d p s : In s (listing (p_slots p)) -> In (first_line utf8 p s) (output utf8 d p).
Proof.
  intros H. unfold output. apply in_or_app. right. apply in_or_app. left. unfold listing in H. apply in_concat in H as (b & Hb & Hs).
  apply in_flat_map. exists b. split; [exact Hb |]. apply in_or_app. left. apply in_flat_map. exists s. split; [exact Hs |]. left. reflexivity.
Qed.
Theorem c87_all_lines_ok : forall utf8 d p s, unique_names (p_slots p) -> wf_parents (p_slots p) -> In s (p_slots p) -> In (first_line utf8 p s) (output utf8 d p).
Proof.
  intros utf8 d p s Hu Hw Hs. apply listed_first. assert (E : shown (p_slots p) (sl_name s) <> 0).
  { destruct (shown_ok _ s Hu Hw Hs) as [A B]. rewrite shown_sum, in_classes by assumption. rewrite (shown_sum _ s Hu Hw Hs), (in_classes _ s Hu Hs) in *.
    destruct (sl_parent s) as [q |] eqn:P.
    - destruct (Hw s q Hs P) as (r & Ir & <- & Ep). rewrite (in_classes _ r Hu Ir). destruct (in_dec string_dec (sl_class r) (root_classes (p_slots p))) as [| N]; [lia |]. exfalso. apply N, class_root_iff. exists r. auto.
    - specialize (A eq_refl). lia. }
  destruct (in_dec string_dec (sl_name s) (map sl_name (listing (p_slots p)))) as [C | C].
  - apply in_map_iff in C as (t & Et & Ht). rewrite (same_slot_eq _ s t Hu Hs (listing_in _ _ Ht) (eq_sym Et)). exact Ht.
  - exfalso. apply E. apply (cnt_notin _ _ C).
Qed.

Lemma plain_id t : no_esc t -> plain false t = t.
Proof.
  unfold no_esc. induction t as [|c r IH]; [reflexivity |]. intros H. cbn [no_char] in H. apply andb_true_iff in H as [H1 H2]. cbn [plain].
  apply negb_true_iff in H1. rewrite H1. f_equal. apply IH, H2.
Qed.
Lemma plain_color a b : no_esc a -> no_esc b -> plain false (a ++ KBLU ++ b ++ KNRM)%string = (a ++ b)%string.
Proof.
  intros Ha Hb. rewrite plain_app by exact Ha. f_equal. change (plain false (KBLU ++ b ++ KNRM)) with (plain false (b ++ KNRM)). rewrite plain_app by exact Hb. apply app_nil_r_s.
Qed.
Lemma split_at {A B} (f : A -> list B) l x : In x l -> exists a b, flat_map f l = (a ++ f x ++ b)%list.
Proof.
  intros H. apply in_split in H as (l1 & l2 & ->). exists (flat_map f l1), (flat_map f l2). rewrite flat_map_app. reflexivity.
Qed.
Lemma appears_r x a l : appears x l -> appears x (a ++ l).
Proof. intros (p & q & ->). exists (a ++ p)%list, q. rewrite app_assoc. reflexivity. Qed.
Lemma appears_l x a l : appears x l -> appears x (l ++ a).
Proof. intros (p & q & ->). exists p, (q ++ a)%list. rewrite <- !app_assoc. reflexivity. Qed.
Lemma appears_block utf8 d p s : In s (listing (p_slots p)) -> appears (slot_lines utf8 d p s) (output utf8 d p).
Proof.
  intros H. unfold listing in H. apply in_concat in H as (bl & Hb & Hs).
  destruct (split_at (fun b => (flat_map (slot_lines utf8 d p) b ++ [""])%list) _ _ Hb) as (a1 & b1 & E1). destruct (split_at (slot_lines utf8 d p) _ _ Hs) as (a2 & b2 & E2).
  unfold output. apply appears_r, appears_l. rewrite E1. apply appears_r, appears_l, appears_l. rewrite E2. apply appears_r, appears_l.
  exists [], []. rewrite app_nil_r. reflexivity.
Qed.
Theorem c87_more_lines_ok : forall utf8 p s, unique_names (p_slots p) -> wf_parents (p_slots p) -> In s (p_slots p) ->
  no_esc (sl_name s) -> no_esc (sl_device s) -> no_esc (sl_type s) -> no_esc_opt (sl_bootname s) -> no_esc_opt (p_descr p (sl_name s)) -> no_esc_opt (p_mount p (sl_name s)) ->
  appears (expected_line utf8 (is_primary p s) s (state_name (p_state p (sl_name s))) :: expected_more p s) (map (plain false) (output utf8 false p)).
Proof.
  intros utf8 p s Hu Hw Hs H1 H2 H3 Hb Hd Hm.
  assert (Hl : In s (listing (p_slots p))).
  { pose proof (c87_shown_ok _ s Hu Hw Hs) as [A B]. destruct (in_dec string_dec (sl_name s) (map sl_name (listing (p_slots p)))) as [C | C].
    - apply in_map_iff in C as (t & Et & Ht). rewrite (same_slot_eq _ s t Hu Hs (listing_in _ _ Ht) (eq_sym Et)). exact Ht.
    - exfalso. pose proof (cnt_notin _ _ C) as Z. change (shown (p_slots p) (sl_name s) = 0) in Z.
      destruct (sl_parent s) as [q |] eqn:P; [| rewrite (A eq_refl) in Z; discriminate]. destruct (B q eq_refl) as [B1 B2].
      destruct (in_dec string_dec (sl_class s) (root_classes (p_slots p))) as [I1 | I1].
      + rewrite (B1 (proj1 (class_root_iff _ _) I1)) in Z. discriminate.
      + rewrite (B2 (fun C2 => I1 (proj2 (class_root_iff _ _) C2))) in Z. discriminate. }
  destruct (appears_block utf8 false p s Hl) as (a & b & E). exists (map (plain false) a), (map (plain false) b). rewrite E, !map_app. f_equal. f_equal.
  unfold slot_lines. cbn [map]. rewrite (c87_line_ok utf8 p s H1 H2 H3). f_equal. rewrite app_nil_r, !map_app. unfold expected_more. f_equal; [| f_equal; [| f_equal]].
  - destruct (sl_bootname s) as [x |]; [| reflexivity]. unfold opt_line, option_map. cbn [map]. f_equal.
    change (plain false ("      bootname: " ++ KBLU ++ x ++ KNRM)%string = ("      bootname: " ++ x)%string). apply plain_color; [reflexivity | exact Hb].
  - destruct (p_descr p (sl_name s)) as [x |]; [| reflexivity]. unfold opt_line. cbn [map]. f_equal. rewrite plain_app by reflexivity. rewrite plain_id by exact Hd. reflexivity.
  - destruct (p_mount p (sl_name s)) as [x |]; [| reflexivity]. unfold opt_line. cbn [map]. f_equal. rewrite plain_app by reflexivity. rewrite plain_id by exact Hm. reflexivity.
  - destruct (sl_bootname s) as [x |]; [| reflexivity]. cbn [map]. destruct (p_boot p (sl_name s)); reflexivity.
Qed.
Theorem c87_header_ok : forall utf8 d p,
  (forall b, In b (p_slots p) -> p_state p (sl_name b) = ST_BOOTED -> (forall s, In s (p_slots p) -> p_state p (sl_name s) = ST_BOOTED -> s = b) ->
     In ("Booted from:    " ++ sl_name b ++ " (" ++ p_bootslot p ++ ")")%string (output utf8 d p)) /\
  ((forall s, In s (p_slots p) -> p_state p (sl_name s) <> ST_BOOTED) -> In ("Booted from:    (null) (" ++ p_bootslot p ++ ")")%string (output utf8 d p)) /\
  (forall q b, p_primary p = Some q -> sl_bootname q = Some b -> In ("Activated: " ++ sl_name q ++ " (" ++ b ++ ")")%string (output utf8 d p)) /\
  (p_primary p = None -> In "Activated: none" (output utf8 d p)).
Proof.
  intros utf8 d p. assert (Hb : In ("Booted from:    " ++ or_null (option_map sl_name (booted p)) ++ " (" ++ p_bootslot p ++ ")")%string (output utf8 d p)).
  { unfold output. apply in_or_app. left. right. right. right. right. left. reflexivity. }
  assert (Ha : In (match p_primary p with None => "Activated: none" | Some s => ("Activated: " ++ sl_name s ++ " (" ++ or_null (sl_bootname s) ++ ")")%string end) (output utf8 d p)).
  { unfold output. apply in_or_app. left. do 7 right. left. reflexivity. }
  split; [| split; [| split]].
  - intros b Ib Sb Ub. destruct (booted p) as [x |] eqn:E.
    + unfold booted in E. apply find_some in E as [Ix Sx]. rewrite (Ub x Ix) in Hb; [exact Hb |]. destruct (p_state p (sl_name x)); try discriminate Sx. reflexivity.
    + unfold booted in E. pose proof (find_none _ _ E b Ib) as X. cbn beta in X. rewrite Sb in X. discriminate X.
  - intros H. destruct (booted p) as [x |] eqn:E; [| exact Hb]. unfold booted in E. apply find_some in E as [Ix Sx]. exfalso. apply (H x Ix). destruct (p_state p (sl_name x)); try discriminate Sx. reflexivity.
  - intros q b Q B. rewrite Q, B in Ha. exact Ha.
  - intros Q. rewrite Q in Ha. exact Ha.
Qed.
