From Verif Require Import Base BaseLemmas Slot Image Manifest KeyFile StatusFile EnvKey EnvKeyProofs ShellWords ShellOut ShellOutSpec.

(** ** the text and the evaluator *)

Definition nameok (n : string) : bool := match n with String c r => name_start c && all_chars name_char r | EmptyString => false end.

Lemma name_start_not : forall c, name_start c = true -> Ascii.eqb c newline = false.
Proof. intros [[] [] [] [] [] [] [] []] H; try discriminate H; reflexivity. Qed.
Lemma name_char_not : forall c, name_char c = true -> Ascii.eqb c "=" = false.
Proof. intros [[] [] [] [] [] [] [] []] H; try discriminate H; reflexivity. Qed.
Lemma name_start_char : forall c, name_start c = true -> name_char c = true.
Proof. intros c H. unfold name_char. rewrite H. reflexivity. Qed.

Lemma eval_name : forall n m rest, all_chars name_char n = true ->
  eval_from (InName m) (n ++ String "=" rest) = eval_from (InValue (m ++ n) "") rest.
Proof.
  induction n as [| c n IH]; intros m rest H.
  - cbn [append eval_from]. rewrite app_nil_s'. reflexivity.
  - cbn [all_chars] in H. apply andb_prop in H as [Hc Hn]. cbn [append eval_from]. rewrite (name_char_not c Hc), Hc, IH by assumption.
    unfold snoc. rewrite app_assoc_s'. reflexivity.
Qed.
Lemma eval_quotes : forall v n x rest, eval_from (InQuotes n x) (esc v ++ String sq rest) = eval_from (InValue n (x ++ v)) rest.
Proof.
  induction v as [| c v IH]; intros n x rest.
  - cbn [esc append]. rewrite app_nil_s'. reflexivity.
  - cbn [esc]. destruct (Ascii.eqb_spec c sq) as [-> | N].
    + cbn [append].
      change (eval_from (InQuotes n x) (String sq (String bs (String sq (String sq (esc v ++ String sq rest)%string)))))
        with (eval_from (InQuotes n (snoc x sq)) (esc v ++ String sq rest)%string).
      rewrite IH. unfold snoc. rewrite app_assoc_s'. reflexivity.
    + cbn [append eval_from]. change "'"%char with sq. rewrite (proj2 (Ascii.eqb_neq c sq) N), IH. unfold snoc. rewrite app_assoc_s'. reflexivity.
Qed.
Definition line (kv : string * string) : string := (fst kv ++ "=" ++ shell_quote (snd kv))%string.
Lemma eval_line : forall kv rest, nameok (fst kv) = true ->
  eval_from AtLine (line kv ++ rest) = eval_from (InValue (fst kv) (snd kv)) rest.
Proof.
  intros [n v] rest H. cbn [fst snd] in *. destruct n as [| c n]; [discriminate |]. cbn [nameok] in H. apply andb_prop in H as [Hc Hn].
  unfold line. cbn [fst snd]. cbn [append]. cbn [eval_from]. rewrite (name_start_not c Hc), Hc.
  rewrite app_assoc_s'. cbn [append]. rewrite eval_name by assumption. unfold shell_quote. rewrite app_cons_s.
  change (eval_from (InQuotes (String c n) "") ((esc v ++ String sq "") ++ rest) = eval_from (InValue (String c n) v) rest).
  rewrite app_assoc_s'. cbn [append]. rewrite eval_quotes. reflexivity.
Qed.

Fixpoint text_of (l : list (string * string)) : string :=
  match l with [] => EmptyString | kv :: r => (line kv ++ String lf (text_of r))%string end.
Lemma eval_text : forall l, forallb (fun kv => nameok (fst kv)) l = true -> sh_eval (text_of l) = Some l.
Proof.
  unfold sh_eval. induction l as [| kv l IH]; intro H; [reflexivity |]. cbn [forallb] in H. apply andb_prop in H as [H1 H2].
  cbn [text_of]. rewrite eval_line by assumption. change (eval_from (InValue (fst kv) (snd kv)) (String lf (text_of l)))
    with (option_map (cons (fst kv, snd kv)) (eval_from AtLine (text_of l))).
  rewrite IH by assumption. cbn [option_map]. destruct kv. reflexivity.
Qed.

Definition entry (kv : string * string) : string := pr (fst kv) (snd kv).
Lemma at_eq_pr : forall n v, all_chars name_char n = true -> at_eq (pr n v) = Some (n, v).
Proof.
  intros n v. unfold pr. induction n as [| c n IH]; intro H; [reflexivity |]. cbn [all_chars] in H. apply andb_prop in H as [Hc Hn].
  cbn [append at_eq]. rewrite (name_char_not c Hc), IH by assumption. reflexivity.
Qed.
Lemma nameok_chars : forall n, nameok n = true -> all_chars name_char n = true.
Proof. intros [| c n] H; [reflexivity |]. cbn [nameok] in H. apply andb_prop in H as [H1 H2]. cbn [all_chars]. rewrite (name_start_char c H1), H2. reflexivity. Qed.
Lemma lines_text : forall l, forallb (fun kv => nameok (fst kv)) l = true -> shell_lines (map entry l) = Ok (text_of l).
Proof.
  induction l as [| kv l IH]; intro H; [reflexivity |]. cbn [forallb] in H. apply andb_prop in H as [H1 H2].
  cbn [map shell_lines text_of]. unfold entry at 1. rewrite at_eq_pr by (apply nameok_chars; exact H1). rewrite IH by assumption. cbn [bind].
  unfold line. rewrite !app_assoc_s'. reflexivity.
Qed.
(** the text without the last newline *)
Lemma text_body : forall l, l <> [] -> exists b, text_of l = (b ++ String sq (String lf ""))%string.
Proof.
  induction l as [| kv l IH]; intro N; [contradiction |]. cbn [text_of]. destruct l as [| kv' l].
  - unfold line, shell_quote. exists (fst kv ++ "=" ++ String sq (esc (snd kv)))%string. cbn [text_of]. rewrite !app_assoc_s'. cbn [append]. rewrite !app_assoc_s'. reflexivity.
  - destruct IH as (b & E); [discriminate |]. rewrite E. exists (line kv ++ String lf b)%string. rewrite !app_assoc_s'. reflexivity.
Qed.
Lemma stake_len : forall a b, stake (String.length a) (a ++ b) = a.
Proof. induction a as [| c a IH]; intro b; [destruct b; reflexivity |]. cbn [String.length append stake]. rewrite IH. reflexivity. Qed.
Lemma env_text : forall l, l <> [] -> forallb (fun kv => nameok (fst kv)) l = true ->
  exists b, env_to_shell (map entry l) = Ok (b ++ String sq "")%string /\ text_of l = ((b ++ String sq "") ++ String lf "")%string.
Proof.
  intros l N H. destruct (text_body l N) as (b & E). exists b. unfold env_to_shell. rewrite lines_text by assumption. cbn [bind].
  assert (E' : text_of l = ((b ++ String sq "") ++ String lf "")%string) by (rewrite app_assoc_s'; exact E).
  split; [| exact E']. rewrite E'.
  assert (L : String.length ((b ++ String sq "") ++ String lf "") = S (String.length (b ++ String sq ""))).
  { rewrite length_app_s. cbn [String.length]. lia. }
  rewrite L. assert (L' : 1 <= String.length (b ++ String sq "")) by (rewrite length_app_s; cbn [String.length]; lia).
  destruct (Nat.ltb_spec 1 (S (String.length (b ++ String sq "")))); [| lia].
  replace (S (String.length (b ++ String sq "")) - 1) with (String.length (b ++ String sq "")) by lia.
  rewrite stake_len. reflexivity.
Qed.
Lemma chomp_sq : forall b, chomp (b ++ String sq "") = (b ++ String sq "")%string.
Proof.
  induction b as [| c b IH]; [reflexivity |]. cbn [append chomp]. rewrite IH. destruct b; reflexivity.
Qed.

(** ** names as lists of words *)
Definition wname (ws : list string) : string := join "_" ws.
Definition went := (list string * string)%type.
Definition unw (e : went) : string * string := (wname (fst e), snd e).
Fixpoint weqb (a b : list string) : bool :=
  match a, b with [], [] => true | x :: a', y :: b' => String.eqb x y && weqb a' b' | _, _ => false end.
Lemma weqb_iff : forall a b, weqb a b = true <-> a = b.
Proof.
  induction a as [| x a IH]; intros [| y b]; cbn; split; intro H; try discriminate; try reflexivity.
  - apply andb_prop in H as [H1 H2]. apply String.eqb_eq in H1. apply IH in H2. subst. reflexivity.
  - inversion H; subst. rewrite String.eqb_refl. apply IH. reflexivity.
Qed.
Definition wok (ws : list string) : bool := match ws with [] => false | _ => forallb (no_char "_") ws end.
Lemma wname_inj : forall a b, wok a = true -> wok b = true -> wname a = wname b -> a = b.
Proof.
  intros a b Ha Hb E. unfold wname in E.
  assert (G : forall l, wok l = true -> split_on "_" (join "_" l) = l).
  { intros l H. apply split_on_join; [intros -> ; discriminate |]. destruct l; [constructor |]. apply Forall_forall. apply forallb_forall. exact H. }
  rewrite <- (G a Ha), <- (G b Hb), E. reflexivity.
Qed.
Fixpoint wlast (q : list string) (l : list went) : option string :=
  match l with [] => None | (ws, v) :: r => match wlast q r with Some x => Some x | None => if weqb ws q then Some v else None end end.
Lemma wlast_eq : forall q l, wok q = true -> Forall (fun e => wok (fst e) = true) l -> value_of (wname q) (map unw l) = wlast q l.
Proof.
  intros q l Hq. induction l as [| [ws v] l IH]; intro H; [reflexivity |]. inversion H as [| ? ? H1 H2]; subst. cbn [fst] in H1.
  cbn [map value_of wlast unw fst snd]. rewrite IH by assumption. destruct (wlast q l); [reflexivity |].
  destruct (weqb ws q) eqn:E.
  - apply weqb_iff in E as ->. rewrite String.eqb_refl. reflexivity.
  - destruct (String.eqb_spec (wname ws) (wname q)) as [X | _]; [| reflexivity].
    apply wname_inj in X; [| assumption | assumption]. subst. rewrite (proj2 (weqb_iff q q) eq_refl) in E. discriminate.
Qed.
Lemma wlast_app : forall q a b, wlast q (a ++ b) = match wlast q b with Some x => Some x | None => wlast q a end.
Proof.
  intros q a b. induction a as [| [ws v] a IH]; cbn [app wlast]; [destruct (wlast q b); reflexivity |].
  rewrite IH. destruct (wlast q b); reflexivity.
Qed.
Lemma wlast_none : forall q l, (forall ws v, In (ws, v) l -> ws <> q) -> wlast q l = None.
Proof.
  intros q l. induction l as [| [ws v] l IH]; intro H; [reflexivity |]. cbn [wlast]. rewrite IH by (intros; eapply H; right; eassumption).
  destruct (weqb ws q) eqn:E; [| reflexivity]. apply weqb_iff in E. destruct (H ws v (or_introl eq_refl) E).
Qed.
Lemma wlast_in : forall q l v, wlast q l = Some v -> In (q, v) l.
Proof.
  intros q l v. induction l as [| [ws x] l IH]; cbn [wlast]; [discriminate |]. destruct (wlast q l).
  - intro H. right. apply IH. exact H.
  - destruct (weqb ws q) eqn:E; [| discriminate]. intro H. injection H as ->. apply weqb_iff in E as ->. left. reflexivity.
Qed.
Lemma wlast_some : forall q l v, In (q, v) l -> exists w, wlast q l = Some w.
Proof.
  intros q l v. induction l as [| [ws x] l IH]; intro H; [contradiction |]. cbn [wlast]. destruct H as [H | H].
  - injection H as -> ->. destruct (wlast q l) as [w |]; [exists w; reflexivity |]. rewrite (proj2 (weqb_iff q q) eq_refl). exists v. reflexivity.
  - destruct (IH H) as (w & ->). exists w. reflexivity.
Qed.

(** ** numbers *)
Lemma dec_inj : forall a b, dec a = dec b -> a = b.
Proof.
  intros a b E. apply (f_equal (horner 10 0)) in E. unfold dec in E. rewrite !horner_print in E by lia. lia.
Qed.
Lemma dec_eqb : forall a b, String.eqb (dec a) (dec b) = Nat.eqb a b.
Proof.
  intros a b. destruct (Nat.eqb_spec a b) as [-> | N]; [apply String.eqb_refl |]. apply String.eqb_neq. intro E. apply N. apply dec_inj. exact E.
Qed.
Definition isnum (w : string) : bool := match w with EmptyString => false | _ => all_chars is_num w end.
Lemma digit10 : forall c, is_digit 10 c = true -> is_num c = true.
Proof. intros [[] [] [] [] [] [] [] []] H; try discriminate H; reflexivity. Qed.
Lemma dec_chars : forall n, all_chars is_num (dec n) = true.
Proof. intro n. eapply all_chars_impl; [exact digit10 |]. apply print_num_chars. lia. Qed.
Lemma dec_isnum : forall n, isnum (dec n) = true.
Proof.
  intro n. pose proof (dec_chars n) as H. unfold isnum. destruct (dec n) eqn:E; [| exact H].
  exfalso. revert E. apply print_num_nonempty.
Qed.
Lemma num_no_us : forall w, all_chars is_num w = true -> no_char "_" w = true.
Proof. intros w H. eapply all_chars_impl; [| exact H]. intros [[] [] [] [] [] [] [] []] X; try discriminate X; reflexivity. Qed.
Lemma dec_no_us : forall n, no_char "_" (dec n) = true.
Proof. intro n. apply num_no_us. apply dec_chars. Qed.
Definition nums (ws : list string) : list string := filter isnum ws.

Lemma numbered_last : forall {A} (f : nat -> A -> list went) p q j,
  (forall i x ws v, In (ws, v) (f i x) -> nth_error (nums ws) p = Some (dec i)) -> nth_error (nums q) p = Some (dec j) ->
  forall l c, wlast q (numbered f c l) = if (j <? c)%nat then None else match nth_error l (j - c) with Some x => wlast q (f j x) | None => None end.
Proof.
  intros A f p q j F Q.
  assert (O : forall i x, i <> j -> wlast q (f i x) = None).
  { intros i x N. apply wlast_none. intros ws v H ->. specialize (F i x q v H). rewrite Q in F. injection F as F. apply dec_inj in F. congruence. }
  induction l as [| x l IH]; intro c.
  - cbn [numbered wlast]. destruct (j <? c)%nat; [reflexivity |]. destruct (j - c); reflexivity.
  - cbn [numbered]. rewrite wlast_app, IH. destruct (Nat.ltb_spec j c) as [L | L].
    + destruct (Nat.ltb_spec j (S c)); [| lia]. apply O. lia.
    + destruct (Nat.ltb_spec j (S c)) as [L' | L'].
      * replace j with c by lia. rewrite Nat.sub_diag. cbn [nth_error]. reflexivity.
      * replace (j - c) with (S (j - S c)) by lia. cbn [nth_error]. destruct (nth_error l (j - S c)).
        { rewrite (O c x) by lia. destruct (wlast q (f j a)); reflexivity. }
        { apply O. lia. }
Qed.
Lemma numbered_map : forall {A B C} (g : B -> C) (f : nat -> A -> list B) l c, map g (numbered f c l) = numbered (fun i x => map g (f i x)) c l.
Proof. intros A B C g f. induction l as [| x l IH]; intro c; [reflexivity |]. cbn [numbered]. rewrite map_app, IH. reflexivity. Qed.
Lemma numbered_ext : forall {A B} (f g : nat -> A -> list B), (forall i x, f i x = g i x) -> forall l c, numbered f c l = numbered g c l.
Proof. intros A B f g H. induction l as [| x l IH]; intro c; [reflexivity |]. cbn [numbered]. rewrite H, IH. reflexivity. Qed.
Lemma numbered_in : forall {A B} (f : nat -> A -> list B) y l c, In y (numbered f c l) -> exists i x, In x l /\ In y (f i x).
Proof.
  intros A B f y. induction l as [| x l IH]; intros c H; [contradiction |]. cbn [numbered] in H. apply in_app_or in H as [H | H].
  - exists c, x. split; [left; reflexivity | exact H].
  - destruct (IH _ H) as (i & x' & H1 & H2). exists i, x'. split; [right; exact H1 | exact H2].
Qed.
Lemma numbered_forall : forall {A B} (P : B -> Prop) (f : nat -> A -> list B), (forall i x, Forall P (f i x)) -> forall l c, Forall P (numbered f c l).
Proof. intros A B P f H. induction l as [| x l IH]; intro c; [constructor |]. cbn [numbered]. apply Forall_app. split; [apply H | apply IH]. Qed.
