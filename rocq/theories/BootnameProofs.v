From Verif Require Import Base BaseLemmas Slot Image Handlers Install InstallSpec InstallProofs Efi Bootname BootnameSpec.
Local Open Scope string_scope.

Definition nospace (s : string) : bool := all_chars (fun a => negb (is_space a)) s.
Definition good_key (k : string) : Prop := k <> "" /\ nospace k = true.

Lemma space_eq : forall c, pcre_space c = is_space c.
Proof. intros c. reflexivity. Qed.

Lemma run_word : forall w, nospace w = true -> nonspace_run w = w.
Proof.
  induction w as [|a w IH]; intros H; [reflexivity|].
  cbn in *. apply andb_true_iff in H. destruct H as [H1 H2].
  rewrite space_eq. destruct (is_space a); [discriminate|]. now rewrite IH.
Qed.

Lemma run_sp : forall w c r, nospace w = true -> is_space c = true -> nonspace_run (w ++ String c r) = w.
Proof.
  induction w as [|a w IH]; intros c r H Hc.
  - cbn. now rewrite space_eq, Hc.
  - cbn in *. apply andb_true_iff in H. destruct H as [H1 H2].
    rewrite space_eq. destruct (is_space a); [discriminate|]. now rewrite IH.
Qed.

Lemma prefix_sp : forall k w c r, nospace k = true -> is_space c = true ->
  has_prefix k (w ++ String c r) = has_prefix k w.
Proof.
  induction k as [|a k IH]; intros w c r Hk Hc; [reflexivity|].
  cbn in Hk. apply andb_true_iff in Hk. destruct Hk as [H1 H2].
  destruct w as [|b w]; cbn.
  - destruct (Ascii.eqb a c) eqn:E; [|reflexivity].
    apply Ascii.eqb_eq in E. subst. rewrite Hc in H1. discriminate.
  - now rewrite IH.
Qed.

Lemma prefix_spec : forall k s, has_prefix k s = true -> s = k ++ sdrop (String.length k) s.
Proof.
  induction k as [|a k IH]; intros s H; [reflexivity|].
  destruct s as [|b s]; [discriminate|]. cbn in H.
  apply andb_true_iff in H. destruct H as [H1 H2]. apply Ascii.eqb_eq in H1. subst b.
  cbn. f_equal. now apply IH.
Qed.

Lemma prefix_app : forall k s, has_prefix k (k ++ s) = true.
Proof. induction k as [|a k IH]; intros s; cbn; [reflexivity|]. now rewrite Ascii.eqb_refl, IH. Qed.

Lemma drop_app : forall k s, sdrop (String.length k) (k ++ s) = s.
Proof. induction k as [|a k IH]; intros s; cbn; auto. Qed.

Lemma drop_app_sp : forall k w t, has_prefix k w = true ->
  sdrop (String.length k) (w ++ t) = sdrop (String.length k) w ++ t.
Proof.
  induction k as [|a k IH]; intros w t H; [reflexivity|].
  destruct w as [|b w]; [discriminate|]. cbn in *.
  apply andb_true_iff in H. now apply IH.
Qed.

Lemma nospace_drop : forall n w, nospace w = true -> nospace (sdrop n w) = true.
Proof.
  induction n as [|n IH]; intros w H; [exact H|].
  destruct w as [|a w]; [reflexivity|]. cbn in *. apply andb_true_iff in H. now apply IH.
Qed.

Lemma sapp_nil : forall s : string, (s ++ "")%string = s.
Proof. induction s; cbn; congruence. Qed.
Lemma sapp_assoc3 : forall a b c : string, ((a ++ b) ++ c = a ++ b ++ c)%string.
Proof. induction a; intros; cbn; congruence. Qed.

(** a match inside one word does not look past its end *)
Lemma here_sp : forall ks w c r, Forall good_key ks -> nospace w = true -> is_space c = true ->
  match_here ks (w ++ String c r) = match_here ks w.
Proof.
  induction ks as [|k ks IH]; intros w c r Hk Hw Hc; [reflexivity|].
  inversion Hk as [|? ? [K1 K2] K3]; subst. cbn.
  rewrite prefix_sp by auto. rewrite IH by auto.
  destruct (has_prefix k w) eqn:P; [|reflexivity].
  rewrite drop_app_sp by auto. rewrite run_sp; auto using nospace_drop.
  rewrite run_word; auto using nospace_drop.
Qed.

Lemma here_space : forall ks c r, Forall good_key ks -> is_space c = true -> match_here ks (String c r) = None.
Proof.
  induction ks as [|k ks IH]; intros c r Hk Hc; [reflexivity|].
  inversion Hk as [|? ? [K1 K2] K3]; subst. cbn.
  destruct k as [|a k]; [congruence|]. cbn in K2 |- *. apply andb_true_iff in K2.
  destruct (Ascii.eqb a c) eqn:E.
  - apply Ascii.eqb_eq in E. subst. rewrite Hc in K2. destruct K2. discriminate.
  - cbn. now apply IH.
Qed.

Lemma here_empty : forall ks, match_here ks "" = None.
Proof.
  induction ks as [|k ks IH]; [reflexivity|]. cbn. destruct k; cbn; auto.
Qed.

Lemma match_sp : forall ks w c r, Forall good_key ks -> nospace w = true -> is_space c = true ->
  regex_match ks (w ++ String c r) =
  match regex_match ks w with Some v => Some v | None => regex_match ks r end.
Proof.
  intros ks w c r Hk. induction w as [|a w IH]; intros Hw Hc.
  - cbn [append]. cbn [regex_match]. rewrite here_space by auto. rewrite here_empty. reflexivity.
  - change ((String a w ++ String c r)%string) with (String a (w ++ String c r)).
    cbn [regex_match].
    change (String a (w ++ String c r)) with ((String a w ++ String c r)%string).
    rewrite here_sp by auto.
    destruct (match_here ks (String a w)); [reflexivity|].
    cbn in Hw. apply andb_true_iff in Hw. apply IH; tauto.
Qed.

Lemma strstr_sp : forall k w c r, good_key k -> is_space c = true ->
  strstr (w ++ String c r) k = strstr w k || strstr r k.
Proof.
  intros k w c r [K1 K2] Hc. induction w as [|a w IH].
  - cbn [append]. cbn [strstr]. 
    assert (has_prefix k (String c r) = false) as ->.
    { change (String c r) with (("" ++ String c r)%string). rewrite prefix_sp by auto.
      destruct k; [congruence|reflexivity]. }
    assert (has_prefix k "" = false) as -> by (destruct k; [congruence|reflexivity]).
    reflexivity.
  - change ((String a w ++ String c r)%string) with (String a (w ++ String c r)).
    cbn [strstr].
    change (String a (w ++ String c r)) with ((String a w ++ String c r)%string).
    rewrite prefix_sp by auto. rewrite IH. now rewrite orb_assoc.
Qed.

(** ** The words of a string *)
Lemma split_word : forall s, nospace s = true \/
  exists w c r, s = w ++ String c r /\ nospace w = true /\ is_space c = true.
Proof.
  induction s as [|a s IH]; [now left|].
  destruct (is_space a) eqn:E.
  - right. exists "", a, s. auto.
  - destruct IH as [H|(w & c & r & H1 & H2 & H3)].
    + left. cbn. now rewrite E.
    + right. exists (String a w), c, r. subst. split; [reflexivity|]. split; [|auto].
      cbn. rewrite E. exact H2.
Qed.

Lemma words_word : forall w cur, nospace w = true ->
  words_acc cur w = (if String.eqb (cur ++ w) "" then [] else [(cur ++ w)%string]).
Proof.
  induction w as [|a w IH]; intros cur H.
  - cbn. now rewrite sapp_nil.
  - cbn in H. apply andb_true_iff in H. destruct H as [H1 H2].
    cbn [words_acc]. destruct (is_space a); [discriminate|].
    rewrite IH by auto. now rewrite !sapp_assoc3.
Qed.

Lemma words_sp : forall w cur c r, nospace w = true -> is_space c = true ->
  words_acc cur (w ++ String c r) =
  ((if String.eqb (cur ++ w) "" then [] else [(cur ++ w)%string]) ++ words_acc "" r)%list.
Proof.
  induction w as [|a w IH]; intros cur c r H Hc.
  - cbn. rewrite Hc. rewrite sapp_nil. destruct (String.eqb cur ""); reflexivity.
  - cbn in H. apply andb_true_iff in H. destruct H as [H1 H2].
    change ((String a w ++ String c r)%string) with (String a (w ++ String c r)).
    cbn [words_acc]. destruct (is_space a); [discriminate|].
    rewrite IH by auto. now rewrite !sapp_assoc3.
Qed.

(** the first word in which the pattern matches *)
Fixpoint first_word (f : string -> option string) (ws : list string) : option string :=
  match ws with
  | [] => None
  | w :: r => match f w with Some v => Some v | None => first_word f r end
  end.

Lemma slen_app2 : forall a b : string, String.length (a ++ b) = (String.length a + String.length b)%nat.
Proof. induction a; intros; cbn; auto. Qed.

Lemma match_params : forall ks s, Forall good_key ks ->
  regex_match ks s = first_word (regex_match ks) (params s).
Proof.
  intros ks s Hk. remember (String.length s) as n eqn:E. revert s E.
  induction n as [n IH] using lt_wf_ind. intros s E.
  destruct (split_word s) as [H|(w & c & r & H1 & H2 & H3)].
  - unfold params. rewrite words_word by auto. cbn [append].
    destruct (String.eqb s "") eqn:Q.
    + apply String.eqb_eq in Q. subst. cbn [regex_match first_word]. now rewrite here_empty.
    + cbn [first_word]. now destruct (regex_match ks s).
  - subst s. rewrite match_sp by auto. unfold params. rewrite words_sp by auto. cbn [append].
    rewrite (IH (String.length r)) with (s := r); auto.
    2:{ rewrite E, slen_app2. cbn. lia. }
    destruct (String.eqb w "") eqn:Q.
    + apply String.eqb_eq in Q. subst w. cbn [regex_match]. rewrite here_empty. reflexivity.
    + reflexivity.
Qed.

Lemma strstr_params : forall k s, good_key k ->
  strstr s k = existsb (fun w => strstr w k) (params s).
Proof.
  intros k s Hk. remember (String.length s) as n eqn:E. revert s E.
  induction n as [n IH] using lt_wf_ind. intros s E.
  assert (strstr "" k = false) as N0.
  { destruct Hk as [K1 _]. destruct k; [congruence|reflexivity]. }
  destruct (split_word s) as [H|(w & c & r & H1 & H2 & H3)].
  - unfold params. rewrite words_word by auto. cbn [append].
    destruct (String.eqb s "") eqn:Q.
    + apply String.eqb_eq in Q. subst. exact N0.
    + cbn [existsb]. now rewrite orb_false_r.
  - subst s. rewrite strstr_sp by auto. unfold params. rewrite words_sp by auto. cbn [append].
    rewrite (IH (String.length r)) with (s := r); auto.
    2:{ rewrite E, slen_app2. cbn. lia. }
    destruct (String.eqb w "") eqn:Q.
    + apply String.eqb_eq in Q. subst w. now rewrite N0.
    + reflexivity.
Qed.

Lemma strstr_contains : forall w k, strstr w k = true <-> contains k w.
Proof.
  intros w k. unfold contains. split.
  - induction w as [|a w IH]; intros H; cbn [strstr] in H; apply orb_true_iff in H; destruct H as [H|H].
    + exists "", (sdrop (String.length k) ""). cbn. now apply prefix_spec.
    + discriminate.
    + exists "", (sdrop (String.length k) (String a w)). now apply prefix_spec.
    + destruct (IH H) as (x & y & Q). exists (String a x), y. cbn. now rewrite Q.
  - intros (a & b & ->). induction a as [|c a IH].
    + cbn [append]. destruct (k ++ b) eqn:E; cbn [strstr]; rewrite <- E, prefix_app; reflexivity.
    + cbn [append strstr]. rewrite IH. now rewrite orb_true_r.
Qed.

Lemma params_nospace : forall s w, In w (params s) -> nospace w = true /\ w <> "".
Proof.
  intros s. remember (String.length s) as n eqn:E. revert s E.
  induction n as [n IH] using lt_wf_ind. intros s E x Hx.
  destruct (split_word s) as [H|(w & c & r & H1 & H2 & H3)].
  - unfold params in Hx. rewrite words_word in Hx by auto. cbn [append] in Hx.
    destruct (String.eqb s "") eqn:Q; [destruct Hx|].
    destruct Hx as [<-|[]]. split; auto. apply String.eqb_neq in Q. auto.
  - subst s. unfold params in Hx. rewrite words_sp in Hx by auto. cbn [append] in Hx.
    apply in_app_or in Hx. destruct Hx as [Hx|Hx].
    + destruct (String.eqb w "") eqn:Q; [destruct Hx|].
      destruct Hx as [<-|[]]. split; auto. apply String.eqb_neq in Q. auto.
    + apply (IH (String.length r)) with (s := r); auto.
      rewrite E, slen_app2. cbn. lia.
Qed.

(** ** Matches within one word *)
Lemma here_some : forall ks w v, nospace w = true -> match_here ks w = Some v ->
  exists k, In k ks /\ is_param k v w.
Proof.
  induction ks as [|k ks IH]; intros w v Hw H; [discriminate|]. cbn in H.
  destruct (has_prefix k w) eqn:P.
  - rewrite run_word in H by auto using nospace_drop.
    pose proof (prefix_spec _ _ P) as Q.
    destruct (sdrop (String.length k) w) as [|a u] eqn:D.
    + destruct (IH _ _ Hw H) as (k' & I1 & I2). exists k'. split; [now right|auto].
    + injection H as <-. exists k. split; [now left|]. split; [exact Q|discriminate].
  - destruct (IH _ _ Hw H) as (k' & I1 & I2). exists k'. split; [now right|auto].
Qed.

Lemma here_param : forall ks w k v, nospace w = true -> In k ks -> is_param k v w ->
  match_here ks w <> None.
Proof.
  induction ks as [|k ks IH]; intros w k' v Hw Hi [Hp Hv]; [destruct Hi|]. cbn.
  destruct Hi as [->|Hi].
  - subst w. rewrite prefix_app, drop_app.
    assert (nospace v = true).
    { generalize (nospace_drop (String.length k') _ Hw). now rewrite drop_app. }
    rewrite run_word by auto. destruct v; [congruence|discriminate].
  - destruct (has_prefix k w).
    + destruct (nonspace_run (sdrop (String.length k) w)); [|discriminate]. apply IH with k' v; auto. split; auto.
    + apply IH with k' v; auto. split; auto.
Qed.

Lemma regex_param_some : forall ks w v, nospace w = true ->
  (forall k, In k ks -> forall a b, w = (a ++ k ++ b)%string -> a = "") ->
  regex_match ks w = Some v -> exists k, In k ks /\ is_param k v w.
Proof.
  intros ks w v Hw Hs H. assert (match_here ks w = Some v \/ exists c u, w = String c u /\ match_here ks w = None /\ regex_match ks u = Some v) as C.
  { destruct w as [|c u]; cbn [regex_match] in H.
    - rewrite here_empty in H. discriminate.
    - destruct (match_here ks (String c u)) eqn:M; [left; congruence|]. right. exists c, u. auto. }
  destruct C as [C|(c & u & -> & _ & C)]; [now apply here_some|].
  exfalso.
  assert (forall u, nospace u = true -> regex_match ks u = Some v -> exists k a b, In k ks /\ u = (a ++ k ++ b)%string) as G.
  { clear. induction u as [|c u IH]; intros Hu H; cbn [regex_match] in H.
    - rewrite here_empty in H. discriminate.
    - destruct (match_here ks (String c u)) eqn:M.
      + destruct (here_some _ _ _ Hu M) as (k & K1 & K2 & _). exists k, "", s. auto.
      + cbn in Hu. apply andb_true_iff in Hu. destruct (IH (proj2 Hu) H) as (k & a & b & K1 & K2).
        exists k, (String c a), b. split; auto. cbn. now rewrite K2. }
  cbn in Hw. apply andb_true_iff in Hw.
  destruct (G u (proj2 Hw) C) as (k & a & b & K1 & K2).
  specialize (Hs k K1 (String c a) b). cbn in Hs. rewrite K2 in Hs. specialize (Hs eq_refl). discriminate.
Qed.

Lemma regex_param_none : forall ks w k v, nospace w = true -> In k ks -> is_param k v w ->
  regex_match ks w <> None.
Proof.
  intros ks w k v Hw Hi Hp. pose proof (here_param _ _ _ _ Hw Hi Hp) as N0.
  destruct w; cbn [regex_match]; destruct (match_here _ _); congruence.
Qed.

Lemma app_inv_str : forall a x y : string, (a ++ x = a ++ y)%string -> x = y.
Proof. induction a; intros x y H; [exact H|]. cbn in H. injection H. apply IHa. Qed.

(** under [only_at_start] the regular expression finds the first parameter *)
Lemma match_first : forall ks s v, Forall good_key ks ->
  (forall k, In k ks -> only_at_start k (params s)) ->
  (forall k k' x v v', In k ks -> In k' ks -> is_param k v x -> is_param k' v' x -> v = v') ->
  (regex_match ks s = Some v <-> first_value ks (params s) v).
Proof.
  intros ks s v Hk Hs Hd. rewrite match_params by auto.
  assert (forall w, In w (params s) -> nospace w = true) as Hn by (intros w Hw; apply (params_nospace _ _ Hw)).
  revert Hs Hn. generalize (params s) as ws. induction ws as [|w ws IH]; intros Hs Hn.
  - split; [discriminate|]. intros (a & w & b & k & Q & _). destruct a; discriminate.
  - assert (nospace w = true) as Hw by (apply Hn; now left).
    cbn [first_word]. destruct (regex_match ks w) as [u|] eqn:M.
    + destruct (regex_param_some ks w u Hw) as (k & K1 & K2).
      { intros k K a b Q. apply (Hs k K w a b); auto. now left. }
      { exact M. }
      split.
      * intros H. injection H as <-. exists [], w, ws, k. repeat (split; auto).
      * intros (a & w' & b & k' & Q1 & Q2 & Q3 & Q4).
        destruct a as [|a0 a]; cbn in Q1.
        -- injection Q1 as <- <-. f_equal. apply (Hd k k' w); auto.
        -- injection Q1 as <- _. exfalso. apply (Q4 w k u); auto. now left.
    + split.
      * intros H. apply IH in H.
        -- destruct H as (a & w' & b & k' & Q1 & Q2 & Q3 & Q4).
           exists (w :: a)%list, w', b, k'. split; [cbn; now rewrite Q1|]. split; auto. split; auto.
           intros x k2 y [<-|Hx] Hk2 Hp.
           ++ apply (regex_param_none ks w k2 y) in M; auto.
           ++ apply (Q4 x k2 y); auto.
        -- intros k K x a b Hx. apply Hs; auto. now right.
        -- intros x Hx. apply Hn. now right.
      * intros (a & w' & b & k' & Q1 & Q2 & Q3 & Q4).
        apply IH.
        -- intros k K x a' b' Hx. apply Hs; auto. now right.
        -- intros x Hx. apply Hn. now right.
        -- destruct a as [|a0 a]; cbn in Q1.
           ++ injection Q1 as <- <-. exfalso. apply (regex_param_none ks w k' v) in M; auto.
           ++ injection Q1 as <- Q1. exists a, w', b, k'. split; auto. split; auto. split; auto.
              intros x k2 y Hx. apply Q4. now right.
Qed.

Lemma match_none : forall ks s, Forall good_key ks ->
  (forall k, In k ks -> only_at_start k (params s)) ->
  (regex_match ks s = None <-> forall k, In k ks -> no_value k (params s)).
Proof.
  intros ks s Hk Hs. rewrite match_params by auto.
  assert (forall w, In w (params s) -> nospace w = true) as Hn by (intros w Hw; apply (params_nospace _ _ Hw)).
  revert Hs Hn. generalize (params s) as ws. induction ws as [|w ws IH]; intros Hs Hn.
  - split; [|reflexivity]. intros _ k _ x y [].
  - assert (nospace w = true) as Hw by (apply Hn; now left).
    cbn [first_word]. destruct (regex_match ks w) as [u|] eqn:M.
    + split; [discriminate|]. intros H. exfalso.
      destruct (regex_param_some ks w u Hw) as (k & K1 & K2).
      { intros k K a b Q. apply (Hs k K w a b); auto. now left. }
      { exact M. }
      apply (H k K1 w u); auto. now left.
    + rewrite IH.
      2:{ intros k K x a b Hx. apply Hs; auto. now right. }
      2:{ intros x Hx. apply Hn. now right. }
      split; intros H k K x y.
      * intros [<-|Hx].
        -- intros Hp. apply (regex_param_none ks w k y) in M; auto.
        -- apply H; auto.
      * intros Hx. apply (H k K). now right.
Qed.

Lemma good_keys : Forall good_key ["rauc.slot="; "root="; "systemd.verity_root_data="; "bootstate.active="; "bootchooser.active="; "rauc.external"; "root=/dev/nfs"].
Proof. repeat (constructor; [split; [discriminate|reflexivity]|]). constructor. Qed.

Ltac gk := first [constructor; [split; [discriminate|reflexivity]|gk] | constructor].

Lemma same_key : forall k x v v', is_param k v x -> is_param k v' x -> v = v'.
Proof. intros k x v v' [H1 _] [H2 _]. rewrite H1 in H2. now apply app_inv_str in H2. Qed.

Lemma match_first1 : forall k s v, good_key k -> only_at_start k (params s) ->
  (regex_match [k] s = Some v <-> first_value [k] (params s) v).
Proof.
  intros k s v Hk Hs. apply match_first.
  - repeat constructor; apply Hk.
  - intros k' [<-|[]]. exact Hs.
  - intros k1 k2 x u u' [<-|[]] [<-|[]]. apply same_key.
Qed.

Lemma match_none1 : forall k s, good_key k -> only_at_start k (params s) ->
  (regex_match [k] s = None <-> no_value k (params s)).
Proof.
  intros k s Hk Hs. rewrite match_none.
  - split; [intros H; apply H; now left|]. intros H k' [<-|[]]. exact H.
  - repeat constructor; apply Hk.
  - intros k' [<-|[]]. exact Hs.
Qed.

Lemma strstr_none : forall k s, good_key k -> (strstr s k = false <-> none_contains k (params s)).
Proof.
  intros k s Hk. rewrite strstr_params by auto. split.
  - intros H w Hw C. apply strstr_contains in C.
    assert (existsb (fun w => strstr w k) (params s) = true); [|congruence].
    apply existsb_exists. eauto.
  - intros H. destruct (existsb _ _) eqn:E; [|reflexivity].
    apply existsb_exists in E. destruct E as (w & W1 & W2). apply strstr_contains in W2. now apply H in W2.
Qed.

Lemma gk_ext : good_key "rauc.external". Proof. split; [discriminate|reflexivity]. Qed.
Lemma gk_nfs : good_key "root=/dev/nfs". Proof. split; [discriminate|reflexivity]. Qed.
Lemma gk_slot : good_key "rauc.slot=". Proof. split; [discriminate|reflexivity]. Qed.
Lemma gk_root : good_key "root=". Proof. split; [discriminate|reflexivity]. Qed.
Lemma gk_ver : good_key "systemd.verity_root_data=". Proof. split; [discriminate|reflexivity]. Qed.

(** ** Results *)
Lemma rauc_slot_ok : forall realpath bl slots c v,
  none_contains "rauc.external" (params c) -> none_contains "root=/dev/nfs" (params c) ->
  only_at_start "rauc.slot=" (params c) -> first_value ["rauc.slot="] (params c) v ->
  get_bootname realpath bl slots (Some c) = Ok (Some v).
Proof.
  intros realpath bl slots c v H1 H2 H3 H4. unfold get_bootname, get_cmdline_bootname_explicit.
  rewrite (proj2 (strstr_none _ _ gk_ext) H1), (proj2 (strstr_none _ _ gk_nfs) H2).
  rewrite (proj2 (match_first1 _ _ _ gk_slot H3) H4). reflexivity.
Qed.

Lemma external_ok : forall realpath bl slots c,
  (exists w, In w (params c) /\ (contains "rauc.external" w \/ contains "root=/dev/nfs" w)) ->
  get_bootname realpath bl slots (Some c) = Ok (Some "_external_").
Proof.
  intros realpath bl slots c (w & W1 & W2). unfold get_bootname, get_cmdline_bootname_explicit.
  destruct (strstr c "rauc.external") eqn:E1; [reflexivity|].
  destruct (strstr c "root=/dev/nfs") eqn:E2; [reflexivity|].
  apply (strstr_none _ _ gk_ext) in E1. apply (strstr_none _ _ gk_nfs) in E2.
  destruct W2 as [C|C]; [now apply E1 in C|now apply E2 in C].
Qed.

Lemma explicit_none : forall c, not_explicit (params c) -> get_cmdline_bootname_explicit (Some c) = None.
Proof.
  intros c (H1 & H2 & H3 & H4). unfold get_cmdline_bootname_explicit.
  rewrite (proj2 (strstr_none _ _ gk_ext) H1), (proj2 (strstr_none _ _ gk_nfs) H2).
  now apply (match_none1 _ _ gk_slot H3).
Qed.

Lemma two_keys : forall x v v',
  is_param "bootstate.active=" v x -> is_param "bootchooser.active=" v' x -> False.
Proof.
  intros x v v' [-> _] [H _]. cbn in H. discriminate.
Qed.

Lemma barebox_ok : forall realpath slots c v,
  not_explicit (params c) ->
  only_at_start "bootstate.active=" (params c) -> only_at_start "bootchooser.active=" (params c) ->
  first_value ["bootstate.active="; "bootchooser.active="] (params c) v ->
  get_bootname realpath BlBarebox slots (Some c) = Ok (Some v).
Proof.
  intros realpath slots c v H0 H1 H2 H3. unfold get_bootname. rewrite explicit_none by auto.
  unfold boot_get_current_bootname.
  rewrite (proj2 (match_first ["bootstate.active="; "bootchooser.active="] c v ltac:(gk) ltac:(intros k [<-|[<-|[]]]; auto) ltac:(
     intros k1 k2 x u u' [<-|[<-|[]]] [<-|[<-|[]]] Q1 Q2; try (eapply same_key; eassumption);
     exfalso; eapply two_keys; eassumption))) by exact H3.
  reflexivity.
Qed.

Lemma custom_ok : forall realpath slots c b,
  not_explicit (params c) -> b <> "" ->
  get_bootname realpath (BlCustom (Some b) true) slots (Some c) = Ok (Some b).
Proof.
  intros realpath slots c b H0 H1. unfold get_bootname. rewrite explicit_none by auto.
  cbn. apply String.eqb_neq in H1. now rewrite H1.
Qed.

Lemma efi_loop_ok : forall e slots s, In s slots -> sl_bootname s = Some (snd e) ->
  efi_current_loop (Some e) slots = Ok (snd e).
Proof.
  intros e slots s. induction slots as [|t ts IH]; intros Hi Hs; [destruct Hi|].
  cbn. destruct (bootname_is (snd e) t) eqn:B; [reflexivity|].
  destruct Hi as [->|Hi]; [|now apply IH].
  unfold bootname_is in B. rewrite Hs, String.eqb_refl in B. discriminate.
Qed.

Lemma efi_ok : forall realpath st slots c s num n a b,
  not_explicit (params c) ->
  ef_order st <> [] -> ef_current st = Some num ->
  ef_entries st = (a ++ (num, n) :: b)%list -> (forall e, In e a -> fst e <> num) ->
  In s slots -> sl_bootname s = Some n ->
  get_bootname realpath (BlEfi st) slots (Some c) = Ok (Some n).
Proof.
  intros realpath st slots c s num n a b H0 Ho Hc He Ha H2 H3. unfold get_bootname. rewrite explicit_none by auto.
  cbn [boot_get_current_bootname]. unfold efi_get_current_bootname, efi_bootorder_get.
  assert (by_num (ef_entries st) num = Some (num, n)) as B.
  { rewrite He. unfold by_num. clear He. induction a as [|x a IH]; cbn.
    - now rewrite String.eqb_refl.
    - assert (String.eqb num (fst x) = false) as ->.
      { apply String.eqb_neq. intros Q. apply (Ha x); auto. now left. }
      apply IH. intros e I1. apply Ha. now right. }
  destruct (ef_entries st) as [|e0 es] eqn:E; [destruct a; discriminate|].
  destruct (ef_order st) as [|o os]; [congruence|].
  cbn [bind in_current]. rewrite Hc, B.
  now rewrite (efi_loop_ok (num, n) slots s H2 H3).
Qed.

Lemma skip_noslash : forall n, has_prefix "/" n = false -> skip_slashes n = n.
Proof.
  intros [|a n] H; [reflexivity|]. cbn [has_prefix] in H. rewrite andb_true_r in H.
  cbn [skip_slashes]. rewrite Ascii.eqb_sym in H. now rewrite H.
Qed.

Lemma by_links : forall v p, root_path v p ->
  by_link "UUID=" "/dev/disk/by-uuid/" (by_link "PARTUUID=" "/dev/disk/by-partuuid/"
    (by_link "PARTLABEL=" "/dev/disk/by-partlabel/" v)) = p.
Proof.
  intros v p H. destruct H as [n Hn|n Hn|n Hn|p H1 H2 H3]; unfold by_link, build_filename.
  - rewrite prefix_app, drop_app, skip_noslash by auto. reflexivity.
  - change (has_prefix "PARTLABEL=" ("PARTUUID=" ++ n)) with false.
    cbv iota. rewrite prefix_app, drop_app, skip_noslash by auto. reflexivity.
  - change (has_prefix "PARTLABEL=" ("UUID=" ++ n)) with false.
    cbv iota. change (has_prefix "PARTUUID=" ("UUID=" ++ n)) with false. cbv iota.
    rewrite prefix_app, drop_app, skip_noslash by auto. reflexivity.
  - rewrite H1, H2, H3. reflexivity.
Qed.

Lemma silent : forall realpath bl slots c, not_explicit (params c) -> bl_silent bl slots c ->
  get_bootname realpath bl slots (Some c) = Ok (get_cmdline_bootname_root realpath (Some c)).
Proof.
  intros realpath bl slots c H0 H1. unfold get_bootname. rewrite explicit_none by auto.
  destruct bl as [line ok|st| |]; cbn [bl_silent boot_get_current_bootname] in *.
  - unfold custom_get_current_bootname. destruct ok; cbn; [|reflexivity].
    destruct H1 as [H1|[-> | ->]]; [discriminate|reflexivity|reflexivity].
  - now rewrite H1.
  - destruct H1 as (B1 & B2 & B3 & B4).
    rewrite (proj2 (match_none ["bootstate.active="; "bootchooser.active="] c ltac:(gk) ltac:(intros k [<-|[<-|[]]]; auto))).
    + reflexivity.
    + intros k [<-|[<-|[]]]; auto.
  - reflexivity.
Qed.

Lemma root_ok : forall realpath bl slots c v p,
  not_explicit (params c) -> bl_silent bl slots c ->
  only_at_start "root=" (params c) -> only_at_start "systemd.verity_root_data=" (params c) ->
  (first_value ["root="] (params c) v \/
   no_value "root=" (params c) /\ first_value ["systemd.verity_root_data="] (params c) v) ->
  root_path v p ->
  get_bootname realpath bl slots (Some c) = Ok (Some (realdev_of realpath p)).
Proof.
  intros realpath bl slots c v p H0 H1 H2 H3 H4 H5. rewrite silent by auto.
  unfold get_cmdline_bootname_root, realdev_of.
  assert (match regex_match ["root="] c with Some b => Some b
          | None => regex_match ["systemd.verity_root_data="] c end = Some v) as ->.
  { destruct H4 as [H4|[H4 H4']].
    - now rewrite (proj2 (match_first1 _ _ _ gk_root H2) H4).
    - rewrite (proj2 (match_none1 _ _ gk_root H2) H4).
      now apply (match_first1 _ _ _ gk_ver H3). }
  cbv zeta. rewrite (by_links v p H5). now destruct (realpath p).
Qed.

Lemma unknown_ok : forall realpath bl slots c,
  not_explicit (params c) -> bl_silent bl slots c ->
  only_at_start "root=" (params c) -> only_at_start "systemd.verity_root_data=" (params c) ->
  no_value "root=" (params c) -> no_value "systemd.verity_root_data=" (params c) ->
  get_bootname realpath bl slots (Some c) = Ok None /\
  forall realdev, determine_slot_states realdev None slots = Err.
Proof.
  intros realpath bl slots c H0 H1 H2 H3 H4 H5. split; [|reflexivity]. rewrite silent by auto.
  unfold get_cmdline_bootname_root.
  rewrite (proj2 (match_none1 _ _ gk_root H2) H4), (proj2 (match_none1 _ _ gk_ver H3) H5). reflexivity.
Qed.

Lemma override_ok : forall b realpath bl slots c, context_bootslot (Some b) realpath bl slots c = Ok (Some b).
Proof. reflexivity. Qed.

Lemma no_cmdline_ok : forall realpath bl slots, 
  match bl with BlCustom _ _ | BlEfi _ => False | _ => True end ->
  get_bootname realpath bl slots None = Ok None.
Proof. intros realpath bl slots H. destruct bl; [destruct H|destruct H| |]; reflexivity. Qed.

(** ** Together with target selection *)
Lemma targets_ok : forall realpath bl c v slots booted bs st per_slot info sysvariant imgs repos aok ps,
  unique_names slots -> wf_parents slots ->
  none_contains "rauc.external" (params c) -> none_contains "root=/dev/nfs" (params c) ->
  only_at_start "rauc.slot=" (params c) -> first_value ["rauc.slot="] (params c) v ->
  In booted slots -> sl_parent booted = None ->
  (sl_bootname booted = Some v \/ sl_name booted = v) ->
  (forall s, In s slots -> sl_bootname s = Some v \/ sl_name s = v \/ realdev_of realpath (sl_device s) = v -> s = booted) ->
  get_bootname realpath bl slots (Some c) = Ok bs ->
  determine_slot_states (realdev_of realpath) bs slots = Ok st ->
  make_plans sysvariant imgs (determine_target_group per_slot st info slots) repos aok = Ok ps ->
  forall s, In s (written ps) -> sl_name s <> sl_name booted /\ sl_parent s <> Some (sl_name booted).
Proof.
  intros realpath bl c v slots booted bs st per_slot info sysvariant imgs repos aok ps
    Hu Hwf H1 H2 H3 H4 Hb Hp Hm Hone Hbs Hst Hps s Hs.
  rewrite (rauc_slot_ok realpath bl slots c v) in Hbs by auto. apply Ok_inj in Hbs. subst bs.
  destruct (states_ok _ _ _ _ Hu Hst) as [(b & B1 & B2 & B3 & _)|(_ & _ & N0)].
  - assert (b = booted) as -> by (apply Hone; auto).
    destruct (c01_ok _ _ _ _ _ _ _ _ _ _ _ _ Hu Hwf Hst Hb B2 Hp Hps s Hs) as (C1 & C2 & _). auto.
  - exfalso. destruct (N0 booted Hb) as (N1 & N2 & _). destruct Hm; auto.
Qed.

Definition exA := mkSlot "rootfs.0" "rootfs" "/dev/sda1" "ext4" (Some "A") None false true.
Definition exB := mkSlot "rootfs.1" "rootfs" "/dev/sda2" "ext4" (Some "B") None false true.
Definition exAB := [exA; exB].

Lemma exAB_facts : unique_names exAB /\ wf_parents exAB /\ unique_bootnames exAB.
Proof.
  split; [repeat constructor; cbn; intuition discriminate|].
  split. { intros s p Hs. cbn in Hs. intuition (subst; cbn in *; discriminate). }
  intros s t b Hs Ht. cbn in Hs, Ht. intuition (subst; cbn in *; congruence).
Qed.

(** The manual says that the parameters are evaluated in the order rauc.slot=,
    rauc.external, root=/dev/nfs: the code tries rauc.slot= last. *)
Lemma order_refuted :
  exists c slots bs st ps booted,
    unique_names slots /\ wf_parents slots /\ unique_bootnames slots /\
    params c = ["rauc.slot=A"; "rauc.external"] /\
    In booted slots /\ sl_bootname booted = Some "A" /\ sl_parent booted = None /\
    get_bootname (fun _ => None) BlOther slots (Some c) = Ok bs /\
    determine_slot_states (fun d => d) bs slots = Ok st /\
    make_plans None [ex_img "rootfs"] (determine_target_group false st ex_info slots) [] true = Ok ps /\
    In booted (written ps).
Proof.
  exists "rauc.slot=A rauc.external", exAB. eexists. eexists. eexists. exists exA.
  destruct exAB_facts as (F1 & F2 & F3).
  split; [exact F1|]. split; [exact F2|]. split; [exact F3|]. split; [reflexivity|].
  split; [cbn; auto|]. split; [reflexivity|]. split; [reflexivity|]. split; [reflexivity|].
  split; [reflexivity|]. split; [reflexivity|]. cbn. auto.
Qed.

(** "rauc.external" counts wherever it occurs, even inside another parameter *)
Lemma substring_refuted :
  exists c slots bs st ps booted,
    unique_names slots /\ wf_parents slots /\ unique_bootnames slots /\
    params c = ["rauc.slot=A"; "systemd.mask=rauc.external.service"] /\
    In booted slots /\ sl_bootname booted = Some "A" /\ sl_parent booted = None /\
    get_bootname (fun _ => None) BlOther slots (Some c) = Ok bs /\
    determine_slot_states (fun d => d) bs slots = Ok st /\
    make_plans None [ex_img "rootfs"] (determine_target_group false st ex_info slots) [] true = Ok ps /\
    In booted (written ps).
Proof.
  exists "rauc.slot=A systemd.mask=rauc.external.service", exAB. eexists. eexists. eexists. exists exA.
  destruct exAB_facts as (F1 & F2 & F3).
  split; [exact F1|]. split; [exact F2|]. split; [exact F3|]. split; [reflexivity|].
  split; [cbn; auto|]. split; [reflexivity|]. split; [reflexivity|]. split; [reflexivity|].
  split; [reflexivity|]. split; [reflexivity|]. cbn. auto.
Qed.

(** a parameter whose name ends in "root=" is taken for root= *)
Lemma root_suffix_refuted :
  exists c slots bs st ps booted,
    unique_names slots /\ wf_parents slots /\ unique_bootnames slots /\
    params c = ["rescueroot=/dev/sda1"; "root=/dev/sda2"] /\
    In booted slots /\ sl_device booted = "/dev/sda2" /\ sl_parent booted = None /\
    get_bootname (fun d => Some d) BlOther slots (Some c) = Ok bs /\
    determine_slot_states (fun d => d) bs slots = Ok st /\
    make_plans None [ex_img "rootfs"] (determine_target_group false st ex_info slots) [] true = Ok ps /\
    In booted (written ps).
Proof.
  exists "rescueroot=/dev/sda1 root=/dev/sda2", exAB. eexists. eexists. eexists. exists exB.
  destruct exAB_facts as (F1 & F2 & F3).
  split; [exact F1|]. split; [exact F2|]. split; [exact F3|]. split; [reflexivity|].
  split; [cbn; auto|]. split; [reflexivity|]. split; [reflexivity|]. split; [reflexivity|].
  split; [reflexivity|]. split; [reflexivity|]. cbn. auto.
Qed.

(** EFI without BootCurrent: the process crashes although root= names the slot *)
Lemma efi_abort_refuted :
  exists c slots st,
    unique_names slots /\ wf_parents slots /\ unique_bootnames slots /\
    ef_entries st = [("0000", "A"); ("0001", "B")] /\ ef_order st = ["0000"; "0001"] /\ ef_current st = None /\
    params c = ["root=/dev/sda1"] /\
    get_bootname (fun d => Some d) (BlEfi st) slots (Some c) = Abort.
Proof.
  exists "root=/dev/sda1", exAB, (mkEfi [("0000", "A"); ("0001", "B")] ["0000"; "0001"] None None).
  destruct exAB_facts as (F1 & F2 & F3).
  split; [exact F1|]. split; [exact F2|]. split; [exact F3|]. repeat split.
Qed.
