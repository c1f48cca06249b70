(** Lemmas about the shared vocabulary of Base.v *)
From Verif Require Import Base.

Ltac Zify.zify_post_hook ::= Z.div_mod_to_equations.

Lemma upd_eq {B} (m : string -> B) k v : upd m k v k = v.
Proof. unfold upd; now rewrite String.eqb_refl. Qed.

Lemma upd_neq {B} (m : string -> B) k k' v : k <> k' -> upd m k v k' = m k'.
Proof. intros H; unfold upd. destruct (String.eqb_spec k k'); congruence. Qed.

Lemma app_nil_r_s (s : string) : (s ++ "" = s)%string.
Proof. induction s; cbn; congruence. Qed.

Lemma app_assoc_s (a b c : string) : ((a ++ b) ++ c = a ++ b ++ c)%string.
Proof. induction a; cbn; congruence. Qed.

Lemma app_inv_l (a b c : string) : (a ++ b = a ++ c)%string -> b = c.
Proof. induction a; cbn; intros H; [assumption|]. inversion H; auto. Qed.

Lemma length_app_s (a b : string) : String.length (a ++ b) = String.length a + String.length b.
Proof. induction a; cbn; auto. Qed.

Lemma app_inv_r (a b c : string) : (a ++ c = b ++ c)%string -> a = b.
Proof.
  revert b; induction a as [|x a IH]; intros b H.
  - destruct b; [reflexivity|]. apply (f_equal String.length) in H.
    cbn in H. rewrite length_app_s in H. lia.
  - destruct b as [|y b].
    + apply (f_equal String.length) in H. cbn in H. rewrite length_app_s in H. lia.
    + cbn in H. inversion H. f_equal. auto.
Qed.

Lemma has_prefix_app p s : has_prefix p (p ++ s) = true.
Proof. induction p as [|a p IH]; cbn; [reflexivity|]. now rewrite Ascii.eqb_refl, IH. Qed.

Lemma has_prefix_spec p s : has_prefix p s = true <-> exists r, s = (p ++ r)%string.
Proof.
  split.
  - revert s; induction p as [|a p IH]; intros s H.
    + exists s; reflexivity.
    + destruct s as [|b s]; cbn in H; [discriminate|].
      apply andb_true_iff in H as [H1 H2]. apply Ascii.eqb_eq in H1 as ->.
      destruct (IH _ H2) as [r ->]. exists r; reflexivity.
  - intros [r ->]. apply has_prefix_app.
Qed.

Lemma sdrop_app p s : sdrop (String.length p) (p ++ s) = s.
Proof. induction p; cbn; auto. Qed.

Lemma stake_app p s : stake (String.length p) (p ++ s) = p.
Proof. induction p; cbn; [destruct s; reflexivity|]. now f_equal. Qed.

Lemma all_chars_app p a b : all_chars p (a ++ b) = all_chars p a && all_chars p b.
Proof. induction a as [|x a IH]; cbn; [reflexivity|]. rewrite IH. now rewrite andb_assoc. Qed.

Lemma all_chars_impl (p q : ascii -> bool) s :
  (forall c, p c = true -> q c = true) -> all_chars p s = true -> all_chars q s = true.
Proof.
  intros H; induction s as [|a s IH]; cbn; [reflexivity|].
  rewrite !andb_true_iff. intros [H1 H2]; auto.
Qed.

Lemma no_char_app c a b : no_char c (a ++ b) = no_char c a && no_char c b.
Proof. apply all_chars_app. Qed.

(** *** splitting *)

Lemma split_on_nonempty c s : split_on c s <> [].
Proof.
  destruct s as [|a s]; cbn; [discriminate|].
  destruct (Ascii.eqb a c); [discriminate|]. destruct (split_on c s); discriminate.
Qed.

Lemma split_on_word c w : no_char c w = true -> split_on c w = [w].
Proof.
  induction w as [|a w IH]; cbn; [reflexivity|].
  intros H. apply andb_true_iff in H as [H1 H2]. apply negb_true_iff in H1. rewrite H1.
  now rewrite (IH H2).
Qed.

Lemma split_on_cons c w s :
  no_char c w = true -> split_on c (w ++ String c s) = w :: split_on c s.
Proof.
  induction w as [|a w IH]; cbn; intros H.
  - now rewrite Ascii.eqb_refl.
  - apply andb_true_iff in H as [H1 H2]. apply negb_true_iff in H1. rewrite H1.
    now rewrite (IH H2).
Qed.

Lemma split_on_join c l :
  l <> [] -> Forall (fun w => no_char c w = true) l ->
  split_on c (join (String c "") l) = l.
Proof.
  induction l as [|w l IH]; intros Hne HF; [congruence|].
  inversion HF as [|? ? Hw Hl]; subst.
  destruct l as [|w' l'].
  - cbn. now apply split_on_word.
  - change (join (String c "") (w :: w' :: l')) with (w ++ String c (join (String c "") (w' :: l')))%string.
    rewrite split_on_cons by assumption. f_equal. apply IH; [discriminate|assumption].
Qed.

Lemma split_on_no_char c s : Forall (fun w => no_char c w = true) (split_on c s).
Proof.
  induction s as [|a s IH]; cbn.
  - repeat constructor.
  - destruct (Ascii.eqb a c) eqn:E.
    + constructor; [reflexivity|assumption].
    + destruct (split_on c s) as [|w ws].
      * constructor; [cbn; now rewrite E|constructor].
      * inversion IH; subst. constructor; [|assumption]. unfold no_char in *. cbn. now rewrite E.
Qed.

Lemma join_split_on c s : join (String c "") (split_on c s) = s.
Proof.
  induction s as [|a s IH]; cbn; [reflexivity|].
  destruct (Ascii.eqb_spec a c) as [->|E].
  - destruct (split_on c s) eqn:Es; [now destruct (split_on_nonempty c s)|].
    cbn in *. now rewrite IH.
  - destruct (split_on c s) as [|w ws] eqn:Es; [now destruct (split_on_nonempty c s)|].
    destruct ws as [|w' ws]; cbn in *; now rewrite IH.
Qed.

(** *** chomp *)

Lemma chomp_clean_tail s w :
  w <> "" -> all_chars (fun a => negb (g_isspace a)) w = true -> chomp (s ++ w) = (s ++ w)%string.
Proof.
  intros Hw Ha. 
  assert (Hb : chomp w = w).
  { clear s. induction w as [|a w IH]; [congruence|]. cbn in *.
    apply andb_true_iff in Ha as [H1 H2]. apply negb_true_iff in H1.
    destruct w as [|b w]; [cbn; now rewrite H1|].
    rewrite IH by (try discriminate; assumption). reflexivity. }
  induction s as [|a s IH]; cbn; [assumption|].
  rewrite IH. destruct (s ++ w)%string eqn:E; [|reflexivity].
  destruct s; cbn in E; [congruence|discriminate].
Qed.

Lemma chomp_newline s c : g_isspace c = true -> chomp (s ++ String c "") = chomp s.
Proof.
  intros H. induction s as [|a s IH]; cbn.
  - now rewrite H.
  - rewrite IH. reflexivity.
Qed.

Lemma clean_word_spec w : clean_word w = true ->
  w <> "" /\ all_chars (fun a => negb (g_isspace a)) w = true.
Proof.
  unfold clean_word; rewrite andb_true_iff, negb_true_iff. intros [H1 H2]. split; [|assumption].
  intros ->. discriminate.
Qed.

Lemma clean_no_space w : clean_word w = true -> no_char " " w = true.
Proof.
  intros H; apply clean_word_spec in H as [_ H]. revert H. apply all_chars_impl.
  intros c Hc. destruct (Ascii.eqb_spec c " "); [subst; discriminate|reflexivity].
Qed.

Lemma chomp_prefix_chars p s : all_chars p s = true -> all_chars p (chomp s) = true.
Proof.
  induction s as [|a s IH]; cbn; [reflexivity|]. rewrite andb_true_iff. intros [H1 H2].
  specialize (IH H2). destruct (chomp s) eqn:E.
  - destruct (g_isspace a); cbn; [reflexivity|now rewrite H1].
  - cbn in *. now rewrite H1.
Qed.

(** *** numbers *)

Lemma digit_val_char d : (d < 16)%N -> digit_val (digit_char d) = Some d.
Proof.
  intros H. assert (Hd : In d (map N.of_nat (seq 0 16))).
  { replace d with (N.of_nat (N.to_nat d)) by lia. apply in_map. apply in_seq. lia. }
  clear H. revert d Hd. apply Forall_forall. cbn. repeat constructor.
Qed.

Lemma digit_val_lt c d : digit_val c = Some d -> (d < 16)%N.
Proof.
  unfold digit_val. intros H.
  repeat match type of H with context [if ?b then _ else _] => destruct b eqn:? end;
  inversion H; subst; lia.
Qed.

(** [str_digits b s]: all characters are digits of base b *)
Definition is_digit (b : N) (c : ascii) : bool :=
  match digit_val c with Some d => (d <? b)%N | None => false end.

Lemma print_digits_chars f b n acc :
  (1 < b <= 16)%N -> all_chars (is_digit b) acc = true ->
  all_chars (is_digit b) (print_digits f b n acc) = true.
Proof.
  intros Hb; revert n acc; induction f as [|f IH]; intros n acc Ha; cbn [print_digits]; [assumption|].
  assert (Hm : (n mod b < b)%N) by (apply N.mod_lt; lia).
  assert (Hd : all_chars (is_digit b) (String (digit_char (n mod b)) acc) = true).
  { cbn [all_chars]. rewrite Ha, andb_true_r. unfold is_digit.
    rewrite digit_val_char by lia. now apply N.ltb_lt. }
  destruct (n / b =? 0)%N; [assumption|]. now apply IH.
Qed.

Lemma print_num_chars b n : (1 < b <= 16)%N -> all_chars (is_digit b) (print_num b n) = true.
Proof. intros Hb. now apply print_digits_chars. Qed.

Lemma print_digits_nonempty f b n acc : (print_digits (S f) b n acc) <> "".
Proof.
  revert n acc; induction f as [|f IH]; intros n acc; cbn [print_digits].
  - destruct (n / b =? 0)%N; discriminate.
  - destruct (n / b =? 0)%N; [discriminate|]. apply IH.
Qed.

Lemma print_num_nonempty b n : print_num b n <> "".
Proof. apply print_digits_nonempty. Qed.

Lemma horner_digit b acc d s : (d < b)%N -> (b <= 16)%N ->
  horner b acc (String (digit_char d) s) = horner b (acc * b + d) s.
Proof.
  intros Hd Hb. cbn [horner]. rewrite digit_val_char by lia.
  apply N.ltb_lt in Hd. now rewrite Hd.
Qed.

Lemma print_digits_horner f b n a acc :
  (1 < b <= 16)%N -> (N.size n <= N.of_nat f)%N -> 
  exists k, horner b a (print_digits (S f) b n acc) = horner b (a * b ^ k + n) acc.
Proof.
  intros Hb. revert n acc; induction f as [|f IH]; intros n acc Hf.
  - assert (n = 0)%N by (destruct n; [reflexivity|]; cbn in Hf; lia). subst.
    exists 1%N. cbn [print_digits]. rewrite N.mod_0_l, N.div_0_l by lia.
    rewrite N.eqb_refl. rewrite horner_digit by lia. now rewrite N.pow_1_r.
  - remember (S f) as g. cbn [print_digits].
    assert (Hm : (n mod b < b)%N) by (apply N.mod_lt; lia).
    destruct (n / b =? 0)%N eqn:E.
    + exists 1%N. rewrite horner_digit by lia. rewrite N.pow_1_r. f_equal.
      apply N.eqb_eq in E. f_equal. pose proof (N.div_mod n b). lia.
    + subst g. destruct (IH (n / b)%N (String (digit_char (n mod b)) acc)) as [k Hk].
      { assert (n <> 0)%N by (intros ->; rewrite N.div_0_l in E by lia; discriminate).
        apply N.eqb_neq in E.
        rewrite !N.size_log2 in * by assumption.
        assert (N.log2 (n / b) <= N.log2 (n / 2))%N.
        { apply N.log2_le_mono. apply N.div_le_compat_l. lia. }
        assert (Hl : (N.log2 (n / 2) = N.log2 n - 1)%N).
        { rewrite <- N.div2_div. rewrite N.div2_spec. apply N.log2_shiftr. }
        assert (N.log2 n <> 0)%N.
        { intros Hl0. apply N.log2_null in Hl0. apply E.
          apply N.div_small. lia. }
        lia. }
      exists (N.succ k). rewrite Hk. rewrite horner_digit by lia.
      f_equal. rewrite N.pow_succ_r'. pose proof (N.div_mod n b ltac:(lia)) as Hdm.
      rewrite Hdm at 3. ring.
Qed.

Lemma horner_print b n : (1 < b <= 16)%N -> horner b 0 (print_num b n) = n.
Proof.
  intros Hb. unfold print_num.
  destruct (print_digits_horner (N.to_nat (N.size n)) b n 0 "" Hb) as [k Hk]; [lia|].
  rewrite Hk. cbn [horner]. lia.
Qed.

Lemma is_digit_not_special b c : is_digit b c = true ->
  strtol_space c = false /\ Ascii.eqb c "-" = false /\ Ascii.eqb c "+" = false /\ is_x c = false.
Proof.
  unfold is_digit. destruct (digit_val c) eqn:E; [|discriminate]. intros _. revert E.
  destruct c as [[] [] [] [] [] [] [] []]; cbn; intros E; try discriminate; auto.
Qed.

Lemma strtoull_print b n : (b = 10 \/ b = 16)%N -> (n < 2 ^ 64)%N ->
  g_ascii_strtoull b (print_num b n) = n.
Proof.
  intros Hb Hn. assert (Hb' : (1 < b <= 16)%N) by lia.
  pose proof (print_num_chars b n Hb') as Hc. pose proof (horner_print b n Hb') as Hh.
  unfold g_ascii_strtoull.
  destruct (print_num b n) as [|c s] eqn:E; [now destruct (print_num_nonempty b n)|].
  cbn [all_chars] in Hc. apply andb_true_iff in Hc as [H1 H2].
  pose proof (is_digit_not_special b c H1) as (Hs & Hm & Hp & Hx).
  cbn [skip_space]. rewrite Hs, Hm, Hp.
  assert (Hpre : match s with
    | String x r => if (b =? 16)%N && Ascii.eqb c "0" && is_x x then r else String c s
    | EmptyString => String c s end = String c s).
  { destruct s as [|x r]; [reflexivity|]. cbn [all_chars] in H2.
    apply andb_true_iff in H2 as [H2 _].
    pose proof (is_digit_not_special b x H2) as (_ & _ & _ & Hx2). rewrite Hx2, !andb_false_r. reflexivity. }
  destruct s as [|x r]; [|rewrite Hpre]; rewrite Hh; unfold ullong_max;
  (destruct (N.ltb_spec (2 ^ 64 - 1) n) as [Hlt|Hle]; [exfalso; revert Hn Hlt; generalize (2 ^ 64)%N; lia | reflexivity]).
Qed.

Lemma print_num_clean b n : (1 < b <= 16)%N -> clean_word (print_num b n) = true.
Proof.
  intros Hb. unfold clean_word. apply andb_true_iff; split.
  - apply negb_true_iff. apply String.eqb_neq. apply print_num_nonempty.
  - eapply all_chars_impl; [|apply print_num_chars, Hb].
    intros c Hc. destruct (is_digit_not_special b c Hc) as (H & _).
    unfold strtol_space in H. apply orb_false_iff in H as [H _]. now rewrite H.
Qed.

Lemma chomp_clean w : clean_word w = true -> chomp w = w.
Proof.
  intros H. apply clean_word_spec in H as [H1 H2]. exact (chomp_clean_tail "" w H1 H2).
Qed.

Lemma Ok_inj {A} (a b : A) : Ok a = Ok b -> a = b.
Proof. intros H; inversion H; reflexivity. Qed.

Lemma Some_inj {A} (a b : A) : Some a = Some b -> a = b.
Proof. intros H; inversion H; reflexivity. Qed.

Lemma bind_ok {A B} (r : res A) (f : A -> res B) b :
  bind r f = Ok b -> exists a, r = Ok a /\ f a = Ok b.
Proof. destruct r as [a| |]; cbn; intros H; [eauto|discriminate|discriminate]. Qed.

Lemma opt_is_spec o s : opt_is o s = true <-> o = Some s.
Proof.
  destruct o as [x|]; cbn; [|split; discriminate]. rewrite String.eqb_eq. split; congruence.
Qed.

Lemma opt_eqb_spec a b : opt_eqb a b = true <-> a = b.
Proof.
  destruct a as [x|], b as [y|]; cbn; try (split; congruence). rewrite String.eqb_eq. split; congruence.
Qed.
