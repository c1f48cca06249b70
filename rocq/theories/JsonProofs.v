(** Proofs for C84: the generator of JsonSpec.v is honest. *)
From Verif Require Import Base BaseLemmas Json JsonSpec.
Open Scope string_scope.

(** ** nested induction *)
Lemma json_nest (P : json -> Prop) : P JNull -> (forall b, P (JBool b)) -> (forall s, P (JStr s)) -> (forall z, P (JInt z)) ->
  (forall l, Forall P l -> P (JArr l)) -> (forall l, Forall (fun e => P (snd e)) l -> P (JObj l)) -> forall v, P v.
Proof.
  intros N B S Z A O. fix IH 1. intros [| b | s | z | l | l].
  - exact N.
  - apply B.
  - apply S.
  - apply Z.
  - apply A. induction l as [| x r IHl]; constructor; [apply IH | exact IHl].
  - apply O. induction l as [| [k x] r IHl]; constructor; [apply IH | exact IHl].
Qed.
Fixpoint jsize (v : json) : nat :=
  match v with
  | JArr l => S (fold_right (fun x n => jsize x + n) 0 l)
  | JObj l => S (fold_right (fun e n => jsize (snd e) + n) 0 l)
  | _ => 1
  end.
Lemma jsize_pos v : 1 <= jsize v.
Proof. destruct v; cbn [jsize]; lia. Qed.

(** ** white space *)
Lemma skip_app b s : all_chars is_ws b = true -> skip_ws (b ++ s) = skip_ws s.
Proof.
  induction b as [| c r IH]; [reflexivity |]. cbn [all_chars append]. intros H. apply andb_true_iff in H as [H1 H2].
  cbn [skip_ws]. rewrite H1. apply IH, H2.
Qed.
Lemma indent_ws n : all_chars is_ws (indent n) = true.
Proof. induction n as [| n IH]; [reflexivity |]. cbn [indent append all_chars]. rewrite IH. reflexivity. Qed.
Lemma brk_ws p n : all_chars is_ws (brk p n) = true.
Proof. destruct p; [| reflexivity]. cbn [brk all_chars]. rewrite indent_ws. reflexivity. Qed.
Lemma read_ws n b s : all_chars is_ws b = true -> read_value n (b ++ s) = read_value n s.
Proof. intros H. destruct n as [| n]; [reflexivity |]. cbn [read_value]. rewrite (skip_app b s H). reflexivity. Qed.
Lemma skip_char c s : is_ws c = false -> skip_ws (String c s) = String c s.
Proof. intros H. cbn [skip_ws]. rewrite H. reflexivity. Qed.

(** ** strings *)
Lemma esc_read c r x t : read_chars r = Some (x, t) -> read_chars (esc c ++ r) = Some (String c x, t).
Proof.
  intros H. destruct c as [b0 b1 b2 b3 b4 b5 b6 b7];
    destruct b0, b1, b2, b3, b4, b5, b6, b7; cbn -[read_chars]; cbn [read_chars]; cbn -[read_chars]; rewrite H; reflexivity.
Qed.
Lemma escape_read s r : read_chars (escape s ++ String quote r) = Some (s, r).
Proof.
  induction s as [| c s IH]; [reflexivity |]. cbn [escape]. rewrite app_assoc_s. apply esc_read, IH.
Qed.
Lemma quoted_read s r : exists u, quoted s ++ r = String quote u /\ read_chars u = Some (s, r).
Proof.
  unfold quoted. exists (escape s ++ String quote r). split; [| apply escape_read].
  cbn [append]. rewrite app_assoc_s. reflexivity.
Qed.

(** ** numbers *)
Definition stops (s : string) : bool := match s with String c _ => negb (is_decimal c || existsb (Ascii.eqb c) ["."; "e"; "E"]%char) | "" => true end.
Lemma decimal_digit c : is_digit 10 c = is_decimal c.
Proof. destruct c as [b0 b1 b2 b3 b4 b5 b6 b7]; destruct b0, b1, b2, b3, b4, b5, b6, b7; reflexivity. Qed.
Lemma digits_app d t : all_chars is_decimal d = true -> stops t = true -> digits (d ++ t) = (d, t).
Proof.
  intros H S. induction d as [| c d IH]; cbn [append].
  - destruct t as [| c t]; [reflexivity |]. cbn [digits]. cbn [stops] in S. destruct (is_decimal c); [discriminate | reflexivity].
  - cbn [all_chars] in H. apply andb_true_iff in H as [H1 H2]. cbn [digits]. rewrite H1, (IH H2). reflexivity.
Qed.
Lemma print_decimal n : all_chars is_decimal (print_num 10 n) = true.
Proof.
  assert (H := print_num_chars 10 n ltac:(lia)). revert H. generalize (print_num 10 n). induction s as [| c s IH]; [reflexivity |].
  cbn [all_chars]. rewrite decimal_digit. intros H. apply andb_true_iff in H as [-> H2]. apply IH, H2.
Qed.
Lemma print_first n : exists c t, print_num 10 n = String c t /\ is_decimal c = true.
Proof.
  assert (D := print_decimal n). destruct (print_num 10 n) as [| c t] eqn:E; [destruct (print_num_nonempty 10 n E) |].
  exists c, t. split; [reflexivity |]. cbn [all_chars] in D. apply andb_true_iff in D as [D _]. exact D.
Qed.
Lemma stop_char t : stops t = true -> (match t with String c _ => existsb (Ascii.eqb c) ["."; "e"; "E"]%char | "" => false end) = false.
Proof. destruct t as [| c t]; [reflexivity |]. cbn [stops]. intros H. apply negb_true_iff, orb_false_iff in H. apply H. Qed.
Lemma number_read z t : stops t = true -> read_number (int_text z ++ t) = Some (JInt z, t).
Proof.
  intros S. unfold read_number, int_text. destruct (z <? 0)%Z eqn:Z0.
  - cbn [append]. cbn [Ascii.eqb Bool.eqb]. rewrite (digits_app _ _ (print_decimal _) S), (stop_char t S), horner_print by lia.
    destruct (print_num 10 (Z.to_N (- z))) eqn:E; [destruct (print_num_nonempty _ _ E) |].
    apply Z.ltb_lt in Z0. do 3 f_equal. lia.
  - assert (D := digits_app _ _ (print_decimal (Z.to_N z)) S). assert (HP := horner_print 10 (Z.to_N z) ltac:(lia)).
    destruct (print_first (Z.to_N z)) as [c [u [E F]]]. rewrite E in *. cbn [append] in *.
    replace (Ascii.eqb c "-") with false.
    + rewrite D, (stop_char t S), HP. apply Z.ltb_ge in Z0. do 3 f_equal. lia.
    + destruct (Ascii.eqb c "-") eqn:M; [| reflexivity]. apply Ascii.eqb_eq in M. subst c. discriminate.
Qed.

(** ** lists *)
Lemma elements_read rv p m n f : forall r x k rest,
  (forall b s, all_chars is_ws b = true -> rv (b ++ s) = rv s) ->
  (forall y, In y (x :: r) -> forall t, stops t = true -> rv (f y ++ t) = Some (y, t)) -> S (List.length r) <= k ->
  elements rv k (brk p m ++ seps f ("," ++ brk p m) (x :: r) ++ brk p n ++ "]" ++ rest) = Some (x :: r, rest).
Proof.
  induction r as [| y r IH]; intros x k rest W H L; (destruct k as [| k]; [cbn [List.length] in L; lia |]); cbn [elements]; rewrite (W _ _ (brk_ws p m)).
  - cbn [seps]. rewrite (H x (or_introl eq_refl)) by (destruct p; reflexivity). rewrite (skip_app _ _ (brk_ws p n)). cbn [append].
    rewrite skip_char by reflexivity. reflexivity.
  - change (seps f ("," ++ brk p m) (x :: y :: r)) with (f x ++ ("," ++ brk p m) ++ seps f ("," ++ brk p m) (y :: r)).
    rewrite !app_assoc_s. rewrite (H x (or_introl eq_refl)) by reflexivity. cbn [append]. rewrite skip_char by reflexivity.
    cbn [Ascii.eqb Bool.eqb]. assert (E := IH y k rest W (fun z Hz => H z (or_intror Hz)) ltac:(cbn [List.length] in L; lia)).
    cbn [append] in E. rewrite E. reflexivity.
Qed.
Lemma members_read rv p m n (f : json -> string) : forall r x k rest,
  (forall b s, all_chars is_ws b = true -> rv (b ++ s) = rv s) ->
  (forall y, In y (x :: r) -> forall t, stops t = true -> rv (f (snd y) ++ t) = Some (snd y, t)) -> S (List.length r) <= k ->
  members rv k (brk p m ++ seps (fun e => quoted (fst e) ++ (if p then " : " else ":") ++ f (snd e)) ("," ++ brk p m) (x :: r) ++ brk p n ++ "}" ++ rest)
    = Some (x :: r, rest).
Proof.
  assert (ONE : forall rv k (a : string) t (x : json), (forall b s, all_chars is_ws b = true -> rv (b ++ s) = rv s) -> rv (f x ++ t) = Some (x, t) ->
     members rv (S k) (brk p m ++ (quoted a ++ (if p then " : " else ":") ++ f x) ++ t) =
     match skip_ws t with
                      | String c u => if Ascii.eqb c "}" then Some ([(a, x)], u)
                                      else if Ascii.eqb c "," then match members rv k u with Some (l, w) => Some ((a, x) :: l, w) | None => None end
                                      else None
                      | "" => None
                      end).
  { intros v k a t x W H. cbn [members]. rewrite (skip_app _ _ (brk_ws p m)). rewrite app_assoc_s.
    destruct (quoted_read a (((if p then " : " else ":") ++ f x) ++ t)) as [u [-> R]]. rewrite skip_char by reflexivity.
    cbn [negb]. rewrite Ascii.eqb_refl. cbn [negb]. rewrite R. rewrite app_assoc_s. destruct p; cbn [append].
    - cbn [skip_ws is_ws existsb Ascii.eqb Bool.eqb orb negb]. rewrite (W " " (f x ++ t) eq_refl : v (String " " (f x ++ t)) = _), H. reflexivity.
    - rewrite skip_char by reflexivity. cbn [Ascii.eqb Bool.eqb negb]. rewrite H. reflexivity. }
  induction r as [| y r IH]; intros x k rest W H L; (destruct k as [| k]; [cbn [List.length] in L; lia |]).
  - cbn [seps]. rewrite ONE; [| exact W | apply H; [left; reflexivity | destruct p; reflexivity]]. rewrite (skip_app _ _ (brk_ws p n)). cbn [append].
    rewrite skip_char by reflexivity. destruct x. reflexivity.
  - change (seps ?g ("," ++ brk p m) (x :: y :: r)) with (g x ++ ("," ++ brk p m) ++ seps g ("," ++ brk p m) (y :: r)). cbv beta.
    rewrite (app_assoc_s (quoted (fst x) ++ _)). rewrite ONE; [| exact W | apply H; [left; reflexivity | reflexivity]].
    rewrite !app_assoc_s. cbn [append]. rewrite skip_char by reflexivity. cbn [Ascii.eqb Bool.eqb].
    assert (E := IH y k rest W (fun z Hz => H z (or_intror Hz)) ltac:(cbn [List.length] in L; lia)).
    cbn [append] in E. rewrite E. destruct x; reflexivity.
Qed.

(** ** all values *)
Lemma int_first z : exists c t, int_text z = String c t /\ (c = "-"%char \/ is_decimal c = true).
Proof.
  unfold int_text. destruct (z <? 0)%Z; [eexists; eexists; split; [reflexivity | left; reflexivity] |].
  destruct (print_first (Z.to_N z)) as [c [t [E F]]]. exists c, t. split; [exact E | right; exact F].
Qed.
Definition starter (c : ascii) : bool := negb (is_ws c || existsb (Ascii.eqb c) ["]"; "}"; ","; ":"]%char).
Lemma number_char c : c = "-"%char \/ is_decimal c = true -> starter c = true /\ existsb (Ascii.eqb c) [quote; "["; "{"; "n"; "t"; "f"]%char = false.
Proof.
  intros [-> | H]; [split; reflexivity |].
  destruct c as [b0 b1 b2 b3 b4 b5 b6 b7]; destruct b0, b1, b2, b3, b4, b5, b6, b7; try discriminate H; split; reflexivity.
Qed.
Lemma gen_first p n v : exists c t, gen_at p n v = String c t /\ starter c = true.
Proof.
  destruct v as [| b | s | z | l | l].
  - eexists; eexists; split; reflexivity.
  - destruct b; eexists; eexists; split; reflexivity.
  - eexists; eexists; split; reflexivity.
  - destruct (int_first z) as [c [t [E F]]]. exists c, t. split; [exact E | apply number_char, F].
  - destruct l; eexists; eexists; split; reflexivity.
  - destruct l; eexists; eexists; split; reflexivity.
Qed.
Lemma starter_ws c : starter c = true -> is_ws c = false /\ Ascii.eqb c "]" = false.
Proof.
  unfold starter. intros H. apply negb_true_iff, orb_false_iff in H as [H1 H2]. split; [exact H1 |]. cbn [existsb] in H2.
  apply orb_false_iff in H2 as [H2 _]. exact H2.
Qed.
Lemma sum_in {A} (f : A -> nat) x l : In x l -> f x <= fold_right (fun y n => f y + n) 0 l.
Proof. induction l as [| y r IH]; [intros [] |]. cbn [fold_right]. intros [-> | H]; [lia |]. specialize (IH H). lia. Qed.
Lemma sum_length {A} (f : A -> nat) l : (forall x, 1 <= f x) -> List.length l <= fold_right (fun y n => f y + n) 0 l.
Proof. intros H. induction l as [| y r IH]; [cbn; lia |]. cbn [fold_right List.length]. specialize (H y). lia. Qed.

Lemma read_gen p : forall v n m rest, jsize v <= n -> stops rest = true -> read_value n (gen_at p m v ++ rest) = Some (v, rest).
Proof.
  induction v as [| b | s | z | l IH | l IH] using json_nest; intros n m rest L S0; (destruct n as [| n]; [assert (J := jsize_pos); cbn [jsize] in L; lia |]); cbn [read_value].
  - cbn [gen_at append]. reflexivity.
  - destruct b; cbn [gen_at append]; reflexivity.
  - cbn [gen_at]. destruct (quoted_read s rest) as [u [-> R]]. rewrite skip_char by reflexivity. rewrite Ascii.eqb_refl, R. reflexivity.
  - cbn [gen_at]. assert (NR := number_read z rest S0). destruct (int_first z) as [c [t [E F]]]. rewrite E in NR |- *. cbn [append] in NR |- *.
    destruct (number_char c F) as [F1 F2]. rewrite skip_char by (apply starter_ws, F1).
    cbn [existsb] in F2. apply orb_false_iff in F2 as [Q F2]. apply orb_false_iff in F2 as [B F2]. apply orb_false_iff in F2 as [C F2].
    apply orb_false_iff in F2 as [D F2]. apply orb_false_iff in F2 as [F2 F3]. apply orb_false_iff in F3 as [F3 _].
    rewrite Q, B, C. cbn [has_prefix]. rewrite Ascii.eqb_sym in D. rewrite Ascii.eqb_sym in F2. rewrite Ascii.eqb_sym in F3.
    rewrite D, F2, F3. cbn [andb]. exact NR.
  - destruct l as [| x r].
    { cbn [gen_at append]. reflexivity. }
    change (gen_at p m (JArr (x :: r))) with ("[" ++ brk p (S m) ++ seps (gen_at p (S m)) ("," ++ brk p (S m)) (x :: r) ++ brk p m ++ "]").
    rewrite !app_assoc_s. cbn [append]. rewrite skip_char by reflexivity. cbn [Ascii.eqb Bool.eqb quote].
    rewrite (skip_app _ _ (brk_ws p (S m))).
    assert (ST : starts "]" (skip_ws (seps (gen_at p (S m)) (String "," (brk p (S m))) (x :: r) ++ brk p m ++ String "]" rest)) = false).
    { destruct (gen_first p (S m) x) as [c [t [E F]]]. destruct (starter_ws c F) as [F1 F2].
      destruct r; cbn [seps]; rewrite E; cbn [append]; rewrite skip_char by exact F1; cbn [starts]; exact F2. }
    cbn [append] in ST. rewrite ST.
    assert (ER := elements_read (read_value n) p (S m) m (gen_at p (S m)) r x n rest).
    cbn [append] in ER. rewrite ER; [reflexivity | intros; apply read_ws; assumption | |].
    + intros y Hy t Ht. rewrite Forall_forall in IH. apply IH; [exact Hy | | exact Ht].
      cbn [jsize] in L. assert (Q := sum_in jsize y (x :: r) Hy). lia.
    + cbn [jsize] in L. assert (Q := sum_length jsize (x :: r) jsize_pos). cbn [List.length] in Q. lia.
  - destruct l as [| x r].
    { cbn [gen_at append]. reflexivity. }
    change (gen_at p m (JObj (x :: r))) with ("{" ++ brk p (S m) ++ seps (fun e => quoted (fst e) ++ (if p then " : " else ":") ++ gen_at p (S m) (snd e)) ("," ++ brk p (S m)) (x :: r) ++ brk p m ++ "}").
    rewrite !app_assoc_s. cbn [append]. rewrite skip_char by reflexivity. cbn [Ascii.eqb Bool.eqb quote].
    rewrite (skip_app _ _ (brk_ws p (S m))).
    match goal with |- context [starts "}" (skip_ws ?a)] => assert (ST : starts "}" (skip_ws a) = false) by (destruct r; reflexivity); rewrite ST end.
    assert (ER := members_read (read_value n) p (S m) m (gen_at p (S m)) r x n rest).
    cbn [append] in ER. rewrite ER; [reflexivity | intros; apply read_ws; assumption | |].
    + intros y Hy t Ht. rewrite Forall_forall in IH. apply IH; [exact Hy | | exact Ht].
      cbn [jsize] in L. assert (Q := sum_in (fun e : string * json => jsize (snd e)) y (x :: r) Hy). cbv beta in Q. lia.
    + cbn [jsize] in L. assert (Q := sum_length (fun e : string * json => jsize (snd e)) (x :: r) (fun e => jsize_pos (snd e))). cbn [List.length] in Q. lia.
Qed.
