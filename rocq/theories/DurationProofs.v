(** Proofs for C85. *)
From Verif Require Import Base BaseLemmas Duration DurationSpec.
Open Scope string_scope.

(** ** numbers *)
Lemma number_ok z : number_text z (dec_z z).
Proof.
  unfold number_text, dec_z. exists (print_num 10 (Z.to_N (Z.abs z))). split; [apply print_num_chars; lia |].
  split; [apply print_num_nonempty |]. split; [apply horner_print; lia |].
  destruct (Z.ltb_spec z 0); [rewrite Z.abs_neq by lia | rewrite Z.abs_eq by lia]; reflexivity.
Qed.
Lemma number_one z z' s : number_text z s -> number_text z' s -> z = z'.
Proof.
  intros (d & A1 & A2 & A3 & A4) (d' & B1 & B2 & B3 & B4). subst s.
  destruct (Z.ltb_spec z 0) as [N | N], (Z.ltb_spec z' 0) as [M | M]; cbn [append] in B4.
  - injection B4 as ->. lia.
  - destruct d' as [| c d']; [contradiction |]. injection B4 as <- _. discriminate B1.
  - destruct d as [| c d]; [contradiction |]. injection B4 as -> _. discriminate A1.
  - subst d'. lia.
Qed.
Lemma digits_no c d : is_digit 10 c = false -> all_chars (is_digit 10) d = true -> no_char c d = true.
Proof.
  intros H. unfold no_char. induction d as [| a d IH]; [reflexivity |]. cbn [all_chars]. intros E. apply andb_true_iff in E as [E1 E2].
  rewrite (IH E2), andb_true_r. destruct (Ascii.eqb_spec a c) as [-> | Q]; [congruence | reflexivity].
Qed.
Lemma nochar_app c a b : no_char c (a ++ b) = no_char c a && no_char c b.
Proof. unfold no_char. induction a as [| x a IH]; [reflexivity |]. cbn [append all_chars]. rewrite IH, andb_assoc. reflexivity. Qed.
Lemma number_no c z s : is_digit 10 c = false -> c <> "-"%char -> number_text z s -> no_char c s = true.
Proof.
  intros H1 H2 (d & A1 & _ & _ & ->). rewrite nochar_app, (digits_no c d H1 A1), andb_true_r. destruct (z <? 0)%Z; [| reflexivity].
  unfold no_char. cbn [all_chars]. destruct (Ascii.eqb_spec "-" c) as [E | E]; [congruence | reflexivity].
Qed.
Lemma number_nonempty z s : number_text z s -> s <> "".
Proof. intros (d & _ & A2 & _ & ->). destruct (z <? 0)%Z; [discriminate | exact A2]. Qed.

(** ** words with blanks *)
Fixpoint pre (l : list string) : string := match l with [] => "" | w :: r => w ++ " " ++ pre r end.
Lemma pre_app a b : pre (a ++ b) = pre a ++ pre b.
Proof. induction a as [| w a IH]; [reflexivity |]. cbn [app pre]. rewrite IH, !app_assoc_s. reflexivity. Qed.
Lemma pre_join l w : pre l ++ w = join " " (l ++ [w]).
Proof.
  induction l as [| x l IH]; [reflexivity |]. cbn [app pre join]. destruct (l ++ [w])%list eqn:E; [destruct l; discriminate E |].
  rewrite !app_assoc_s, IH. reflexivity.
Qed.
Definition solid (w : string) : Prop := exists x c, w = x ++ String c "" /\ g_isspace c = false.
Lemma chomp_solid x w : solid w -> chomp (x ++ w) = x ++ w.
Proof.
  intros (y & c & -> & H). rewrite <- app_assoc_s. apply chomp_clean_tail; [discriminate |]. cbn [all_chars]. rewrite H. reflexivity.
Qed.
Lemma chomp_pre l w : solid w -> chomp (pre (l ++ [w])) = join " " (l ++ [w]).
Proof.
  intros H. rewrite pre_app. cbn [pre]. change (w ++ " " ++ "") with (w ++ String " " ""). rewrite <- app_assoc_s, chomp_newline by reflexivity.
  rewrite chomp_solid by exact H. apply pre_join.
Qed.

(** ** durations *)
Definition word (x : Z * tunit) : string := dec_z (fst x) ++ letter (snd x).
Definition optp (z : Z) (u : tunit) : list (Z * tunit) := if (z =? 0)%Z then [] else [(z, u)].
Lemma word_solid x : solid (word x).
Proof. destruct x as [z []]; unfold word, solid; cbn [fst snd letter]; eexists _, _; split; reflexivity. Qed.
Lemma piece z u : (if (z =? 0)%Z then "" else dec_z z ++ (letter u ++ " ")) = pre (map word (optp z u)).
Proof. unfold optp. destruct (z =? 0)%Z; [reflexivity |]. cbn [map pre]. unfold word. cbn [fst snd]. rewrite !app_assoc_s. reflexivity. Qed.
Definition parts (n : Z) : list (Z * tunit) :=
  (optp (Z.quot n 86400) Days ++ optp (Z.rem (Z.quot n 3600) 24) Hours ++ optp (Z.rem (Z.quot n 60) 60) Minutes
   ++ (if (Z.rem n 60 =? 0)%Z && negb (n =? 0)%Z then [] else [(Z.rem n 60, Seconds)]))%list.
Lemma sums n : n = (Z.quot n 86400 * 86400 + Z.rem (Z.quot n 3600) 24 * 3600 + Z.rem (Z.quot n 60) 60 * 60 + Z.rem n 60)%Z.
Proof.
  assert (A := Z.quot_rem' n 60). assert (B := Z.quot_rem' (Z.quot n 60) 60). assert (C := Z.quot_rem' (Z.quot n 3600) 24).
  rewrite Z.quot_quot in B by lia. rewrite Z.quot_quot in C by lia. change (60 * 60)%Z with 3600%Z in B. change (3600 * 24)%Z with 86400%Z in C. lia.
Qed.
Lemma last_map (l : list (Z * tunit)) : l <> [] -> exists a x, map word l = (a ++ [word x])%list.
Proof. intros H. destruct (exists_last H) as (a & x & ->). exists (map word a), x. rewrite map_app. reflexivity. Qed.
Lemma parts_nonempty n : parts n <> [].
Proof.
  assert (S := sums n). unfold parts, optp. destruct (Z.eqb_spec (Z.quot n 86400) 0), (Z.eqb_spec (Z.rem (Z.quot n 3600) 24) 0), (Z.eqb_spec (Z.rem (Z.quot n 60) 60) 0),
    (Z.eqb_spec (Z.rem n 60) 0), (Z.eqb_spec n 0); cbn [andb negb app]; try discriminate. lia.
Qed.
Lemma text_parts n : format_duration n = join " " (map word (parts n)).
Proof.
  unfold format_duration. change (3600 * 24)%Z with 86400%Z. change "d " with (letter Days ++ " "). change "h " with (letter Hours ++ " "). change "m " with (letter Minutes ++ " ").
  rewrite !piece. assert (P := parts_nonempty n). unfold parts in *. set (a := optp _ Days) in *. set (b := optp _ Hours) in *. set (c := optp _ Minutes) in *.
  destruct ((Z.rem n 60 =? 0)%Z && negb (n =? 0)%Z).
  - rewrite app_nil_r in *. rewrite app_nil_r_s. rewrite <- !pre_app, <- !map_app. destruct (last_map _ P) as (l & x & ->). apply chomp_pre, word_solid.
  - rewrite !map_app. change (dec_z (Z.rem n 60) ++ "s") with (word (Z.rem n 60, Seconds)). cbn [map].
    replace (pre (map word a) ++ pre (map word b) ++ pre (map word c) ++ word (Z.rem n 60, Seconds)) with (pre (map word a ++ map word b ++ map word c)%list ++ word (Z.rem n 60, Seconds))
      by (rewrite !pre_app, !app_assoc_s; reflexivity).
    rewrite chomp_solid by apply word_solid. rewrite pre_join, <- !app_assoc. reflexivity.
Qed.
Lemma c85_duration_ok : forall n, says_duration (format_duration n) n.
Proof.
  intros n. exists (parts n), (map word (parts n)). split; [apply text_parts |]. split.
  { induction (parts n) as [| x r IH]; cbn [map]; constructor; [| exact IH]. exists (dec_z (fst x)). split; [apply number_ok | reflexivity]. }
  split; [apply parts_nonempty |].
  assert (S := sums n).
  assert (R1 := Z.rem_bound_abs n 60 ltac:(lia)). assert (R2 := Z.rem_bound_abs (Z.quot n 60) 60 ltac:(lia)). assert (R3 := Z.rem_bound_abs (Z.quot n 3600) 24 ltac:(lia)).
  change (Z.abs 60) with 60%Z in *. change (Z.abs 24) with 24%Z in *.
  assert (G1 : (0 <= n -> 0 <= Z.quot n 86400 /\ 0 <= Z.rem (Z.quot n 3600) 24 /\ 0 <= Z.rem (Z.quot n 60) 60 /\ 0 <= Z.rem n 60)%Z).
  { intros H. assert (Q1 := Z.quot_pos n 86400 H ltac:(lia)). assert (Q2 := Z.quot_pos n 3600 H ltac:(lia)). assert (Q3 := Z.quot_pos n 60 H ltac:(lia)).
    repeat split; try assumption; apply Z.rem_nonneg; lia. }
  assert (G2 : (n <= 0 -> Z.quot n 86400 <= 0 /\ Z.rem (Z.quot n 3600) 24 <= 0 /\ Z.rem (Z.quot n 60) 60 <= 0 /\ Z.rem n 60 <= 0)%Z).
  { intros H. assert (K : forall b, (0 < b -> Z.quot n b <= 0)%Z). { intros b Hb. assert (Q := Z.quot_pos (- n) b ltac:(lia) Hb). rewrite Z.quot_opp_l in Q by lia. lia. }
    assert (Q1 := K 86400%Z ltac:(lia)). assert (Q2 := K 3600%Z ltac:(lia)). assert (Q3 := K 60%Z ltac:(lia)). repeat split; try assumption; apply Z.rem_nonpos; lia. }
  unfold parts, optp. set (d := Z.quot n 86400) in *. set (h := Z.rem (Z.quot n 3600) 24) in *. set (m := Z.rem (Z.quot n 60) 60) in *. set (s := Z.rem n 60) in *. clearbody d h m s.
  destruct (Z.eqb_spec d 0), (Z.eqb_spec h 0), (Z.eqb_spec m 0), (Z.eqb_spec s 0), (Z.eqb_spec n 0); cbn [andb negb app total falling fst snd seconds_of rank]; try lia;
    (split; [lia |]); (split; [repeat split; repeat constructor |]);
    (split; [repeat constructor; unfold small; cbn [fst snd]; lia |]);
    repeat constructor; cbn [fst snd]; try lia; intros; try (exfalso; lia); f_equal; lia.
Qed.
Lemma last_letter n n' u u' : n ++ letter u = n' ++ letter u' -> n = n' /\ u = u'.
Proof.
  revert n'. induction n as [| c n IH]; intros [| c' n'] E.
  - split; [reflexivity |]. destruct u, u'; try reflexivity; discriminate E.
  - destruct u; cbn in E; injection E as _ E; destruct n'; cbn in E; destruct u'; discriminate E.
  - destruct u'; cbn in E; injection E as _ E; destruct n; cbn in E; destruct u; discriminate E.
  - cbn in E. injection E as -> E. destruct (IH _ E) as [-> ->]. split; reflexivity.
Qed.
Lemma part_one x y s : part_text x s -> part_text y s -> x = y.
Proof.
  intros (n & A1 & ->) (n' & B1 & E). apply last_letter in E as [<- E]. destruct x, y. cbn [fst snd] in *. rewrite E, (number_one _ _ _ A1 B1). reflexivity.
Qed.
Lemma part_blank x s : part_text x s -> no_char " " s = true.
Proof.
  intros (n & A & ->). rewrite nochar_app, (number_no " " _ _ eq_refl ltac:(discriminate) A). destruct (snd x); reflexivity.
Qed.
Lemma c85_one_meaning_ok : forall s n m, says_duration s n -> says_duration s m -> n = m.
Proof.
  intros s n m (l & w & A1 & A2 & A3 & A4 & _) (l' & w' & B1 & B2 & B3 & B4 & _). subst s n m.
  assert (K : forall l w, Forall2 part_text l w -> l <> [] -> split_on " " (join " " w) = w).
  { intros k v F Q. apply split_on_join; [intros ->; inversion F; subst; contradiction |]. clear Q. induction F; constructor; [eapply part_blank; eassumption | assumption]. }
  assert (E : w = w') by (rewrite <- (K l w A2 A3), <- (K l' w' B2 B3), B1; reflexivity). subst w'. clear - A2 B2.
  f_equal. revert l' B2. induction A2 as [| x s l w H F IH]; intros l' B2; inversion B2 as [| y ? r ? H' F']; subst; [reflexivity |].
  rewrite (part_one _ _ _ H H'), (IH _ F'). reflexivity.
Qed.
Lemma c85_distinct_ok : forall n m, format_duration n = format_duration m -> n = m.
Proof. intros n m E. apply (c85_one_meaning_ok (format_duration n)); [| rewrite E]; apply c85_duration_ok. Qed.

(** ** bars *)
Lemma repeat_concat c n : repeat_c c n = String.concat "" (repeat (String c "") n).
Proof.
  induction n as [| n IH]; [reflexivity |]. cbn [repeat_c repeat]. rewrite IH. destruct n; reflexivity.
Qed.
Lemma repeat_len c n : String.length (repeat_c c n) = n.
Proof. induction n as [| n IH]; [reflexivity |]. cbn [repeat_c String.length]. rewrite IH. reflexivity. Qed.
Lemma bar_eq lim : forall n i, bar_from i n lim = repeat_c "#" (Nat.min n (Z.to_nat (lim - i + 1))) ++ repeat_c " " (n - Nat.min n (Z.to_nat (lim - i + 1))).
Proof.
  induction n as [| n IH]; intros i; [reflexivity |]. cbn [bar_from]. rewrite IH. destruct (Z.ltb_spec lim i) as [L | L].
  - replace (Z.to_nat (lim - i + 1)) with 0 by lia. replace (Z.to_nat (lim - (i + 1) + 1)) with 0 by lia. rewrite !Nat.min_0_r, !Nat.sub_0_r. reflexivity.
  - replace (Z.to_nat (lim - i + 1)) with (S (Z.to_nat (lim - (i + 1) + 1))) by lia. rewrite <- Nat.succ_min_distr. reflexivity.
Qed.
Lemma strlen_app a b : String.length (a ++ b) = String.length a + String.length b.
Proof. induction a as [| c a IH]; [reflexivity |]. cbn [append String.length]. rewrite IH. reflexivity. Qed.
Lemma dec3_len p : (0 <= p <= 100)%Z -> String.length (dec3 p) = 3.
Proof.
  intros H. assert (F : forallb (fun k => Nat.eqb (String.length (dec3 (Z.of_nat k))) 3) (seq 0 101) = true) by (vm_compute; reflexivity).
  rewrite forallb_forall in F. specialize (F (Z.to_nat p)). rewrite Z2Nat.id in F by lia. apply Nat.eqb_eq, F, in_seq. lia.
Qed.
Lemma c85_bar_ok : forall cols p, (7 <= cols)%Z -> (0 <= p <= 100)%Z ->
  exists line filled empty, progress_bar cols p = Some line /\ Z.of_nat (String.length line) = (cols - 1)%Z /\
  bar_shows line filled empty p /\ Z.of_nat (filled + empty) = (cols - 7)%Z /\
  ((cols - 7) * p <= 100 * Z.of_nat filled <= (cols - 7) * p + 100)%Z /\ (p = 100%Z -> empty = 0).
Proof.
  intros cols p Hc Hp. unfold progress_bar. destruct (Z.leb_spec p 100) as [_ | Q]; [| lia].
  replace (cols - 1 - 1 - 5)%Z with (cols - 7)%Z by lia. set (L := (cols - 7)%Z). assert (HL : (0 <= L)%Z) by (unfold L; lia).
  rewrite bar_eq. rewrite Z.quot_div_nonneg by nia. set (k := (L * p / 100)%Z).
  assert (K : (100 * k <= L * p < 100 * k + 100)%Z). { unfold k. assert (M := Z.div_mod (L * p) 100 ltac:(lia)). assert (B := Z.mod_pos_bound (L * p) 100 ltac:(lia)). lia. }
  assert (K0 : (0 <= k)%Z) by nia. set (f := Nat.min (Z.to_nat L) (Z.to_nat (k - 0 + 1))).
  assert (Fl : (f <= Z.to_nat L)%nat) by (unfold f; lia).
  eexists. exists f, (Z.to_nat L - f). split; [reflexivity |]. split; [| split; [| split; [| split]]].
  - rewrite !strlen_app, !repeat_len, (dec3_len p Hp). cbn [String.length]. lia.
  - unfold bar_shows. exists (repeat_c "#" f), (repeat_c " " (Z.to_nat L - f)), (repeat_c " " (3 - String.length (dec_z p))), (dec_z p). rewrite <- !repeat_concat.
    split; [unfold dec3; rewrite !app_assoc_s; reflexivity |]. repeat split; try reflexivity. apply number_ok.
  - lia.
  - destruct (Z.le_gt_cases L (k + 1)).
    + replace f with (Z.to_nat L) by (unfold f; lia). rewrite Z2Nat.id by lia. split; nia.
    + replace f with (Z.to_nat (k + 1)) by (unfold f; lia). rewrite Z2Nat.id by lia. split; lia.
  - intros ->. assert (k = L) by (unfold k; apply Z.div_mul; lia). unfold f. lia.
Qed.
Lemma marks_app a b : marks (a ++ b) = marks a + marks b.
Proof. induction a as [| c a IH]; [reflexivity |]. cbn [append marks]. rewrite IH. lia. Qed.
Lemma marks_rep n : marks (repeat_c "#" n) = n.
Proof. induction n as [| n IH]; [reflexivity |]. cbn [repeat_c marks]. rewrite IH. reflexivity. Qed.
Lemma marks_none s : no_char "#" s = true -> marks s = 0.
Proof.
  unfold no_char. induction s as [| c s IH]; [reflexivity |]. cbn [all_chars marks]. intros H. apply andb_true_iff in H as [H1 H2]. rewrite (IH H2).
  apply negb_true_iff in H1. rewrite H1. reflexivity.
Qed.
Lemma rep_no c x n : c <> x -> no_char c (repeat_c x n) = true.
Proof.
  intros H. unfold no_char. induction n as [| n IH]; [reflexivity |]. cbn [repeat_c all_chars]. rewrite IH, andb_true_r.
  destruct (Ascii.eqb_spec x c) as [E | E]; [congruence | reflexivity].
Qed.
Lemma dec3_no c p : is_digit 10 c = false -> c <> "-"%char -> c <> " "%char -> no_char c (dec3 p) = true.
Proof. intros H1 H2 H3. unfold dec3. rewrite nochar_app, rep_no by exact H3. exact (number_no c p _ H1 H2 (number_ok p)). Qed.
Lemma bar_marks cols p line : progress_bar cols p = Some line -> marks line = Nat.min (Z.to_nat (cols - 7)) (Z.to_nat (Z.quot ((cols - 7) * p) 100 + 1)).
Proof.
  unfold progress_bar. destruct (p <=? 100)%Z; [| discriminate]. intros E. apply Some_inj in E. subst line.
  replace (cols - 1 - 1 - 5)%Z with (cols - 7)%Z by lia. rewrite bar_eq, Z.sub_0_r, !marks_app, marks_rep, (marks_none (repeat_c " " _)) by (apply rep_no; discriminate).
  rewrite (marks_none (dec3 p)) by (apply dec3_no; [reflexivity | discriminate | discriminate]). change (marks "[") with 0. change (marks "]") with 0. change (marks "%") with 0. lia.
Qed.
Lemma c85_bar_grows_ok : forall cols p p' a b, progress_bar cols p = Some a -> progress_bar cols p' = Some b -> (p <= p')%Z -> marks a <= marks b.
Proof.
  intros cols p p' a b A B H. rewrite (bar_marks _ _ _ A), (bar_marks _ _ _ B). destruct (Z.le_gt_cases 0 (cols - 7)) as [L | L]; [| lia].
  assert (Q := Z.quot_le_mono ((cols - 7) * p) ((cols - 7) * p') 100 ltac:(lia) ltac:(nia)). lia.
Qed.
(** at 0% there is a mark already; on a terminal with less than six columns the line does not fit *)
Lemma c85_empty_refuted : ~ (forall cols line, (7 <= cols)%Z -> progress_bar cols 0 = Some line -> marks line = 0).
Proof. intros H. specialize (H 80%Z _ ltac:(lia) eq_refl). vm_compute in H. discriminate H. Qed.
Lemma c85_narrow_refuted : ~ (forall cols p line, (0 <= p <= 100)%Z -> (0 <= cols)%Z -> progress_bar cols p = Some line -> (Z.of_nat (String.length line) <= cols)%Z).
Proof. intros H. specialize (H 5%Z 50%Z _ ltac:(lia) ltac:(lia) eq_refl). vm_compute in H. apply H. reflexivity. Qed.

(** ** the lines *)
Lemma cut c a b x y : no_char c a = true -> no_char c b = true -> a ++ String c x = b ++ String c y -> a = b /\ x = y.
Proof.
  revert b. unfold no_char. induction a as [| e a IH]; intros [| f b] A B E; cbn [append] in E.
  - injection E as ->. split; reflexivity.
  - injection E as <- _. cbn [all_chars] in B. rewrite Ascii.eqb_refl in B. discriminate B.
  - injection E as -> _. cbn [all_chars] in A. rewrite Ascii.eqb_refl in A. discriminate A.
  - injection E as -> E. cbn [all_chars] in A, B. apply andb_true_iff in A as [_ A]. apply andb_true_iff in B as [_ B]. destruct (IH b A B E) as [-> ->]. split; reflexivity.
Qed.
Lemma blanks_off n m s t : no_char " " s = true -> no_char " " t = true -> s <> "" -> t <> "" -> repeat_c " " n ++ s = repeat_c " " m ++ t -> s = t.
Proof.
  intros A B NS NT. revert m. induction n as [| n IH]; intros [| m] E; cbn [repeat_c append] in E.
  - exact E.
  - destruct s as [| c s]; [contradiction |]. injection E as -> _. discriminate A.
  - destruct t as [| c t]; [contradiction |]. injection E as <- _. discriminate B.
  - injection E as E. exact (IH _ E).
Qed.
Lemma dec3_inj p q : dec3 p = dec3 q -> p = q.
Proof.
  intros E. apply (number_one p q (dec_z p)); [apply number_ok |]. unfold dec3 in E.
  rewrite (blanks_off _ _ (dec_z p) (dec_z q)
    (number_no " " p _ eq_refl ltac:(discriminate) (number_ok p)) (number_no " " q _ eq_refl ltac:(discriminate) (number_ok q))
    (number_nonempty _ _ (number_ok p)) (number_nonempty _ _ (number_ok q)) E). apply number_ok.
Qed.
Lemma c85_line_ok : forall p m, exists pad d, progress_line p m = pad ++ d ++ "% " ++ m /\ number_text p d /\ pad = String.concat "" (repeat " " (3 - String.length d)).
Proof. intros p m. exists (repeat_c " " (3 - String.length (dec_z p))), (dec_z p). split; [unfold progress_line, dec3; rewrite !app_assoc_s; reflexivity |]. split; [apply number_ok | apply repeat_concat]. Qed.
Lemma c85_lines_distinct_ok : forall p q m k, progress_line p m = progress_line q k -> p = q /\ m = k.
Proof.
  intros p q m k E. unfold progress_line in E. change ("% " ++ m) with (String "%" (String " " m)) in E. change ("% " ++ k) with (String "%" (String " " k)) in E.
  apply cut in E; [| apply dec3_no; [reflexivity | discriminate | discriminate] ..]. destruct E as [E1 E2]. injection E2 as E2. split; [apply dec3_inj, E1 | exact E2].
Qed.
