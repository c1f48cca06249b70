(** Proofs for C84. *)
From Coq Require Import Permutation.
From Verif Require Import Base BaseLemmas KeyFile Image Manifest StatusFile ShellOut ShellOutSpec ShellOutE2E Json JsonSpec JsonSaysSpec JsonProofs.
From Verif Require DbusInstall DbusInstallSpec DbusInstallProofs LogText.
Open Scope string_scope.

(** ** the generator *)
Lemma len_app a b : String.length (a ++ b) = String.length a + String.length b.
Proof. induction a as [| c a IH]; [reflexivity |]. cbn [append String.length]. rewrite IH. reflexivity. Qed.
Lemma seps_len {A} (f : A -> string) (g : A -> nat) sep l : (forall x, In x l -> g x <= String.length (f x)) ->
  fold_right (fun x n => g x + n) 0 l <= String.length (seps f sep l).
Proof.
  induction l as [| x r IH]; intros H; [cbn; lia |]. cbn [fold_right].
  assert (H1 := H x (or_introl eq_refl)). specialize (IH (fun y Hy => H y (or_intror Hy))). destruct r as [| y r]; [cbn [seps fold_right]; lia |].
  change (seps f sep (x :: y :: r)) with (f x ++ sep ++ seps f sep (y :: r)). rewrite !len_app. lia.
Qed.
Lemma gen_len p : forall v m, jsize v <= String.length (gen_at p m v).
Proof.
  induction v as [| b | s | z | l IH | l IH] using json_nest; intros m.
  - cbn; lia.
  - destruct b; cbn; lia.
  - cbn; lia.
  - cbn [gen_at jsize]. destruct (int_first z) as [c [t [-> _]]]. cbn [String.length]. lia.
  - destruct l as [| x r]; [cbn; lia |].
    change (gen_at p m (JArr (x :: r))) with ("[" ++ brk p (S m) ++ seps (gen_at p (S m)) ("," ++ brk p (S m)) (x :: r) ++ brk p m ++ "]").
    rewrite !len_app. cbn [jsize]. rewrite Forall_forall in IH.
    assert (Q := seps_len (gen_at p (S m)) jsize ("," ++ brk p (S m)) (x :: r) (fun y Hy => IH y Hy (S m))). cbn [String.length]. lia.
  - destruct l as [| x r]; [cbn; lia |].
    change (gen_at p m (JObj (x :: r))) with ("{" ++ brk p (S m) ++ seps (fun e => quoted (fst e) ++ (if p then " : " else ":") ++ gen_at p (S m) (snd e)) ("," ++ brk p (S m)) (x :: r) ++ brk p m ++ "}").
    rewrite !len_app. cbn [jsize]. rewrite Forall_forall in IH.
    assert (Q := seps_len (fun e => quoted (fst e) ++ (if p then " : " else ":") ++ gen_at p (S m) (snd e)) (fun e => jsize (snd e)) ("," ++ brk p (S m)) (x :: r)).
    cbn [String.length]. cbv beta in Q. rewrite <- plus_n_Sm, <- plus_n_O || idtac.
    assert (R : fold_right (fun (e : string * json) n => jsize (snd e) + n) 0 (x :: r) <= String.length (seps (fun e => quoted (fst e) ++ (if p then " : " else ":") ++ gen_at p (S m) (snd e)) ("," ++ brk p (S m)) (x :: r))).
    { apply Q. intros y Hy. rewrite !len_app. specialize (IH y Hy (S m)). lia. }
    lia.
Qed.
Lemma esc_compact c : no_char line_break (esc c) = true.
Proof. destruct c as [b0 b1 b2 b3 b4 b5 b6 b7]; destruct b0, b1, b2, b3, b4, b5, b6, b7; reflexivity. Qed.
Lemma no_app c a b : no_char c (a ++ b) = no_char c a && no_char c b.
Proof. unfold no_char. induction a as [| x a IH]; [reflexivity |]. cbn [append all_chars]. rewrite IH, andb_assoc. reflexivity. Qed.
Lemma quoted_compact s : no_char line_break (quoted s) = true.
Proof.
  unfold quoted. change (String quote (escape s ++ String quote "")) with (String quote "" ++ (escape s ++ String quote "")). rewrite !no_app.
  assert (H : no_char line_break (escape s) = true); [| rewrite H; reflexivity].
  induction s as [| c s IH]; [reflexivity |]. cbn [escape]. rewrite no_app, esc_compact, IH. reflexivity.
Qed.
Lemma decimal_compact s : all_chars is_decimal s = true -> no_char line_break s = true.
Proof.
  unfold no_char. induction s as [| c s IH]; [reflexivity |]. cbn [all_chars]. intros H. apply andb_true_iff in H as [H1 H2]. rewrite (IH H2), andb_true_r.
  destruct (Ascii.eqb c line_break) eqn:E; [| reflexivity]. apply Ascii.eqb_eq in E. subst c. discriminate.
Qed.
Lemma seps_compact {A} (f : A -> string) l : (forall x, In x l -> no_char line_break (f x) = true) -> no_char line_break (seps f "," l) = true.
Proof.
  induction l as [| x r IH]; intros H; [reflexivity |]. assert (H1 := H x (or_introl eq_refl)). specialize (IH (fun y Hy => H y (or_intror Hy))).
  destruct r as [| y r]; [exact H1 |]. change (seps f "," (x :: y :: r)) with (f x ++ "," ++ seps f "," (y :: r)). rewrite !no_app, H1, IH. reflexivity.
Qed.
Lemma gen_compact : forall v m, no_char line_break (gen_at false m v) = true.
Proof.
  induction v as [| b | s | z | l IH | l IH] using json_nest; intros m.
  - reflexivity.
  - destruct b; reflexivity.
  - apply quoted_compact.
  - cbn [gen_at]. unfold int_text. destruct (z <? 0)%Z; [rewrite no_app |]; rewrite (decimal_compact _ (print_decimal _)); reflexivity.
  - destruct l as [| x r]; [reflexivity |].
    change (gen_at false m (JArr (x :: r))) with ("[" ++ "" ++ seps (gen_at false (S m)) "," (x :: r) ++ "" ++ "]").
    rewrite !no_app. rewrite Forall_forall in IH. rewrite (seps_compact _ _ (fun y Hy => IH y Hy (S m))). reflexivity.
  - destruct l as [| x r]; [reflexivity |].
    change (gen_at false m (JObj (x :: r))) with ("{" ++ "" ++ seps (fun e => quoted (fst e) ++ ":" ++ gen_at false (S m) (snd e)) "," (x :: r) ++ "" ++ "}").
    rewrite !no_app. rewrite Forall_forall in IH. rewrite seps_compact; [reflexivity |]. intros y Hy. rewrite !no_app, quoted_compact, (IH y Hy). reflexivity.
Qed.
Lemma c84_generator_ok : honest json_text.
Proof.
  constructor.
  - intros p v rest. unfold json_next, json_text. apply read_gen; [| reflexivity]. rewrite len_app. assert (H := gen_len p v 0). lia.
  - intros v. apply gen_compact.
  - intros p [| x r]; [exists ""; reflexivity |].
    exists (brk p 1 ++ seps (fun e => quoted (fst e) ++ (if p then " : " else ":") ++ gen_at p 1 (snd e)) ("," ++ brk p 1) (x :: r) ++ brk p 0).
    unfold json_text.
    change (gen_at p 0 (JObj (x :: r))) with ("{" ++ brk p 1 ++ seps (fun e => quoted (fst e) ++ (if p then " : " else ":") ++ gen_at p 1 (snd e)) ("," ++ brk p 1) (x :: r) ++ brk p 0 ++ "}").
    rewrite !app_assoc_s. reflexivity.
Qed.

(** ** reading what is printed *)
Lemma read_line gen p v : honest gen -> json_read (gen p v ++ LogText.nl) = Some v.
Proof. intros [R _ _]. unfold json_read. change LogText.nl with (String line_break ""). rewrite R. reflexivity. Qed.

(** ** members *)
Ltac hh := eexists; split; [reflexivity | reflexivity].
Lemma jopt_eq o : jopt o = str_or_null o.
Proof. destruct o; reflexivity. Qed.
Lemma flags2 a b c : jstrs (flagged [(a, "pre-install"); (b, "install"); (c, "post-install")]) = set_flags [("pre-install", a); ("install", b); ("post-install", c)].
Proof. destruct a, b, c; reflexivity. Qed.
Lemma image_told_ok i : image_told i (image_json i).
Proof.
  unfold image_json. eexists. split; [reflexivity |].
  rewrite <- flags2. change str_or_null with jopt. destruct (im_convert i) as [| a l], (im_converted i) as [| b k]; cbn [jlist1 app]; repeat split; hh.
Qed.
Lemma c84_info_ok : forall gen pretty m hash, honest gen ->
  exists v l, json_read (info_text gen pretty m hash []) = Some v /\
  has v "compatible" (str_or_null (mf_compatible m)) /\ has v "version" (str_or_null (mf_version m)) /\
  has v "description" (str_or_null (mf_description m)) /\ has v "build" (str_or_null (mf_build m)) /\
  has v "format" (JStr (match mf_format m with F_PLAIN => "plain" | F_VERITY => "verity" | F_CRYPT => "crypt" end)) /\
  has v "hooks" (set_flags [("install-check", mf_install_check m)]) /\ has v "hash" (str_or_null hash) /\
  has v "images" (JArr l) /\ Forall2 image_told (mf_images m) l.
Proof.
  intros gen pretty m hash H. exists (info_json m hash), (map image_json (mf_images m)).
  split; [apply read_line, H |]. change str_or_null with jopt. repeat (split; [first [hh | unfold info_json; destruct (mf_install_check m); hh] |]).
  induction (mf_images m) as [| i r IH]; constructor; [apply image_told_ok | exact IH].
Qed.
Lemma c84_dump_refuted : exists m hash dump, forall gen, honest gen -> exists v, json_read (info_text gen true m hash []) = Some v /\ json_read (info_text gen true m hash [dump]) = None.
Proof.
  exists (mkManifest (Some "c") None None None None F_PLAIN false None None 0 None None None None false [] []), None, "Certificate:". intros gen H.
  exists (info_json (mkManifest (Some "c") None None None None F_PLAIN false None None 0 None None None None false [] []) None). split; [apply read_line, H |].
  unfold json_read, info_text. destruct H as [R _ _]. cbn [fold_right]. change LogText.nl with (String line_break ""). cbn [append]. rewrite R. reflexivity.
Qed.

(** ** json-2: dictionaries *)
Lemma set_new {B} k (v : B) l : ~ In k (map fst l) -> assoc_set k v l = (l ++ [(k, v)])%list.
Proof.
  induction l as [| [a b] r IH]; [reflexivity |]. cbn [map fst In assoc_set app]. intros H.
  destruct (String.eqb_spec a k) as [E | E]; [destruct H; left; exact E |]. rewrite IH; [reflexivity |]. intros Q. apply H. right. exact Q.
Qed.
Lemma jobj_unique l : NoDup (map fst l) -> jobj l = JObj l.
Proof.
  intros H. unfold jobj. f_equal.
  assert (G : forall r d : list (string * json), NoDup (map fst (d ++ r)%list) -> fold_left (fun d (kv : string * json) => assoc_set (fst kv) (snd kv) d) r d = (d ++ r)%list).
  { induction r as [| [a b] r IH]; intros d N; cbn [fold_left fst snd]; [rewrite app_nil_r; reflexivity |].
    rewrite set_new; [rewrite IH; rewrite <- app_assoc; [reflexivity | exact N] |].
    rewrite map_app in N. cbn [map fst] in N. apply NoDup_remove_2 in N. intros Q. apply N, in_or_app. left. exact Q. }
  exact (G l [] H).
Qed.
Definition gd_json (d : list (string * DbusInstall.gv)) : list (string * json) := map (fun e => (fst e, of_gvariant (snd e))) d.
Lemma of_gd d : NoDup (map fst d) -> of_gvariant (DbusInstall.GD d) = JObj (gd_json d).
Proof.
  intros H. cbn [of_gvariant].
  assert (E : forall d, (fix go (d : list (string * DbusInstall.gv)) : list (string * json) := match d with [] => [] | (k, x) :: r => (k, of_gvariant x) :: go r end) d = gd_json d).
  { induction d0 as [| [k x] r IH]; [reflexivity |]. cbn [gd_json map fst snd]. f_equal. exact IH. }
  rewrite E. apply jobj_unique. unfold gd_json. rewrite map_map. exact H.
Qed.
Lemma of_ga l : of_gvariant (DbusInstall.GA l) = JArr (map of_gvariant l).
Proof. reflexivity. Qed.
Lemma has_assoc d k : NoDup (map fst d) ->
  match assoc k d with Some g => has (JObj (gd_json d)) k (of_gvariant g) | None => has_not (JObj (gd_json d)) k end.
Proof.
  induction d as [| [a b] r IH]; intros N; [eexists; split; reflexivity |]. cbn [map fst] in N. inversion N as [| ? ? N1 N2]; subst.
  specialize (IH N2). cbn [assoc gd_json map fst snd]. destruct (String.eqb a k) eqn:E.
  - apply String.eqb_eq in E. subst a. eexists. split; [reflexivity |]. cbn [filter fst]. rewrite String.eqb_refl. f_equal.
    clear - N1. induction r as [| [a' b'] r IH]; [reflexivity |]. cbn [map filter fst]. destruct (String.eqb_spec a' k) as [E | E]; [destruct N1; left; exact E |].
    apply IH. intros Q. apply N1. right. exact Q.
  - destruct (assoc k r); destruct IH as (l & L & F); injection L as <-; (eexists; split; [reflexivity |]); cbn [filter fst]; rewrite E; exact F.
Qed.
Lemma all_in d k g : (fix all (d : list (string * DbusInstall.gv)) : Prop := match d with [] => True | (_, x) :: r => DbusInstallSpec.keys_unique x /\ all r end) d ->
  assoc k d = Some g -> DbusInstallSpec.keys_unique g.
Proof.
  induction d as [| [a b] r IH]; [discriminate |]. intros [H1 H2]. cbn [assoc]. destruct (String.eqb a k); [intros Q; injection Q as <-; exact H1 | apply IH, H2].
Qed.
Lemma path_some : forall p v x, DbusInstallSpec.keys_unique v -> DbusInstallSpec.at_path p v = Some x -> has_at (of_gvariant v) p (of_gvariant x) /\ DbusInstallSpec.keys_unique x.
Proof.
  induction p as [| k r IH]; intros v x U H; cbn [DbusInstallSpec.at_path] in H; [injection H as <-; split; [reflexivity | exact U] |].
  destruct v as [s | n | l | d | l]; try discriminate. destruct (assoc k d) as [g |] eqn:E; [| discriminate].
  cbn [DbusInstallSpec.keys_unique] in U. destruct U as [N A]. assert (HA := has_assoc d k N). rewrite E in HA. rewrite (of_gd d N).
  destruct (IH g x (all_in d k g A E) H) as [H1 H2]. split; [| exact H2]. exists (of_gvariant g). split; assumption.
Qed.
Lemma path_none : forall p v y, DbusInstallSpec.keys_unique v -> DbusInstallSpec.at_path p v = None -> ~ has_at (of_gvariant v) p y.
Proof.
  induction p as [| k r IH]; intros v y U H; cbn [DbusInstallSpec.at_path] in H; [discriminate |]. intros (w & (l0 & L & F) & W).
  destruct v as [s | n | l | d | l]; try discriminate.
  cbn [DbusInstallSpec.keys_unique] in U. destruct U as [N A]. assert (HA := has_assoc d k N). rewrite (of_gd d N) in L. injection L as <-.
  destruct (assoc k d) as [g |] eqn:E.
  - destruct HA as (l1 & L1 & F1). injection L1 as <-. rewrite F in F1. injection F1 as ->. exact (IH g y (all_in d k g A E) H W).
  - destruct HA as (l1 & L1 & F1). injection L1 as <-. rewrite F in F1. discriminate.
Qed.
