(** Quoting words for sh: bundle.c:219-300 casync_make_arch joins its words with blanks into the
    argument of "sh -c".  g_shell_quote (GLib, gshell.c) puts a word in single quotes and writes each
    single quote in it as '\''.  [sh_tokens] is a small part of the shell's token recognition and quote
    removal (POSIX XCU 2.2, 2.3): words, quotes, backslash, blanks and &&; every other character that
    could mean something to the shell gives [None]. *)
From Verif Require Import Base.

Definition sq : ascii := "'"%char.
Definition bs : ascii := "\"%char.

Fixpoint esc (w : string) : string :=
  match w with
  | EmptyString => EmptyString
  | String c r => if Ascii.eqb c sq then String sq (String bs (String sq (String sq (esc r)))) else String c (esc r)
  end.
(** GLib g_shell_quote *)
Definition shell_quote (w : string) : string := String sq (esc w ++ String sq EmptyString)%string.

Inductive token := TWord (w : string) | TAnd.

(** letters, digits and - . / : = _ + , @ % stand for themselves *)
Definition ordinary (c : ascii) : bool :=
  let n := nat_of_ascii c in
  (Nat.leb 48 n && Nat.leb n 57) || (Nat.leb 65 n && Nat.leb n 90) || (Nat.leb 97 n && Nat.leb n 122)
  || existsb (Ascii.eqb c) ["-"; "."; "/"; ":"; "="; "_"; "+"; ","; "@"; "%"]%char.

Inductive mode := Plain | Quoted | Escaped | And.

Definition flush (cur : option string) (l : list token) : list token :=
  match cur with Some w => TWord w :: l | None => l end.
Definition add (cur : option string) (c : ascii) : option string :=
  Some (match cur with Some w => w ++ String c EmptyString | None => String c EmptyString end)%string.

(** [cur]: the word being read *)
Fixpoint tokens (m : mode) (cur : option string) (s : string) : option (list token) :=
  match s with
  | EmptyString => match m with Plain => Some (flush cur []) | _ => None end
  | String c r =>
      match m with
      | Quoted => if Ascii.eqb c sq then tokens Plain cur r else tokens Quoted (add cur c) r
      | Escaped => tokens Plain (add cur c) r
      | And => if Ascii.eqb c "&" then option_map (fun l => flush cur (TAnd :: l)) (tokens Plain None r) else None
      | Plain =>
          if Ascii.eqb c " " then option_map (flush cur) (tokens Plain None r)
          else if Ascii.eqb c sq then tokens Quoted (match cur with None => Some EmptyString | x => x end) r
          else if Ascii.eqb c bs then tokens Escaped cur r
          else if Ascii.eqb c "&" then tokens And cur r
          else if ordinary c then tokens Plain (add cur c) r else None
      end
  end.
Definition sh_tokens (s : string) : option (list token) := tokens Plain None s.

(** ** proofs *)

Lemma app_cons_s : forall c a b, ((String c a) ++ b)%string = String c (a ++ b)%string. Proof. reflexivity. Qed.
Lemma add_app : forall w c, add (Some w) c = Some (w ++ String c EmptyString)%string. Proof. reflexivity. Qed.

Lemma app_assoc_s' : forall a b c, ((a ++ b) ++ c)%string = (a ++ (b ++ c))%string.
Proof. induction a as [| x a IH]; intros b c; [reflexivity |]. cbn [append]. rewrite IH. reflexivity. Qed.
Lemma app_nil_s' : forall a, (a ++ EmptyString)%string = a.
Proof. induction a as [| x a IH]; [reflexivity |]. cbn [append]. rewrite IH. reflexivity. Qed.

(** inside quotes, the escaped word is added to the current word *)
Lemma tokens_esc : forall w cur rest, tokens Quoted (Some cur) (esc w ++ String sq rest) = tokens Plain (Some (cur ++ w)%string) rest.
Proof.
  induction w as [| c w IH]; intros cur rest.
  - cbn [esc append]. rewrite app_nil_s'. reflexivity.
  - cbn [esc]. destruct (Ascii.eqb_spec c sq) as [-> | N].
    + cbn [append]. change (tokens Quoted (Some cur) (String sq (String bs (String sq (String sq (esc w ++ String sq rest)%string)))))
        with (tokens Quoted (Some (cur ++ String sq EmptyString)%string) (esc w ++ String sq rest)%string).
      rewrite IH, app_assoc_s'. reflexivity.
    + cbn [append tokens]. rewrite (proj2 (Ascii.eqb_neq c sq) N), add_app, IH, app_assoc_s'. reflexivity.
Qed.

Lemma tokens_quoted : forall w rest, tokens Plain None (shell_quote w ++ rest) = tokens Plain (Some w) rest.
Proof.
  intros w rest. unfold shell_quote. rewrite app_cons_s.
  change (tokens Quoted (Some EmptyString) ((esc w ++ String sq EmptyString) ++ rest) = tokens Plain (Some w) rest).
  rewrite app_assoc_s'. cbn [append]. rewrite tokens_esc. reflexivity.
Qed.

(** a fixed word *)
Definition fixed_word (w : string) : bool := all_chars ordinary w && negb (String.eqb w "").
Lemma ordinary_not : forall c, ordinary c = true -> Ascii.eqb c " " = false /\ Ascii.eqb c sq = false /\ Ascii.eqb c bs = false /\ Ascii.eqb c "&" = false.
Proof.
  intros c H. repeat split; match goal with |- Ascii.eqb c ?x = false => destruct (Ascii.eqb_spec c x) as [-> | _]; [discriminate H | reflexivity] end.
Qed.
Lemma tokens_ordinary : forall w cur rest, all_chars ordinary w = true -> tokens Plain (Some cur) (w ++ rest) = tokens Plain (Some (cur ++ w)%string) rest.
Proof.
  induction w as [| c w IH]; intros cur rest H; [rewrite app_nil_s'; reflexivity |].
  cbn [all_chars] in H. apply andb_prop in H as [Hc Hw]. destruct (ordinary_not c Hc) as (E1 & E2 & E3 & E4).
  cbn [append tokens]. rewrite E1, E2, E3, E4, Hc, add_app, IH, app_assoc_s' by assumption. reflexivity.
Qed.
Lemma tokens_fixed : forall w rest, fixed_word w = true -> tokens Plain None (w ++ rest) = tokens Plain (Some w) rest.
Proof.
  intros [| c w] rest H; [discriminate |]. unfold fixed_word in H. apply andb_prop in H as [H _]. cbn [all_chars] in H. apply andb_prop in H as [Hc Hw].
  destruct (ordinary_not c Hc) as (E1 & E2 & E3 & E4). cbn [append tokens]. rewrite E1, E2, E3, E4, Hc.
  change (add None c) with (Some (String c EmptyString)). rewrite tokens_ordinary by assumption. reflexivity.
Qed.

(** a piece of the command line: a fixed word, a quoted word, or && *)
Inductive piece := PFix (w : string) | PQuote (w : string) | PAnd.
Definition text (p : piece) : string := match p with PFix w => w | PQuote w => shell_quote w | PAnd => "&&" end.
Definition meaning (p : piece) : token := match p with PFix w | PQuote w => TWord w | PAnd => TAnd end.
Definition piece_ok (p : piece) : bool := match p with PFix w => fixed_word w | _ => true end.

Lemma tokens_piece : forall p rest, piece_ok p = true ->
  tokens Plain None (text p ++ String " " rest) = option_map (cons (meaning p)) (tokens Plain None rest)
  /\ tokens Plain None (text p) = Some [meaning p].
Proof.
  intros p rest H. rewrite <- (app_nil_s' (text p)) at 2. destruct p as [w | w |]; cbn [text meaning piece_ok] in *.
  - rewrite !tokens_fixed by assumption. split; reflexivity.
  - rewrite !tokens_quoted. split; reflexivity.
  - split; [| reflexivity]. cbn. destruct (tokens Plain None rest); reflexivity.
Qed.

Lemma sh_pieces : forall l, forallb piece_ok l = true -> sh_tokens (join " " (map text l)) = Some (map meaning l).
Proof.
  induction l as [| p r IH]; intro H; [reflexivity |]. cbn [forallb] in H. apply andb_prop in H as [Hp Hr]. specialize (IH Hr).
  destruct r as [| q r]; [exact (proj2 (tokens_piece p "" Hp)) |].
  change (map text (p :: q :: r)) with (text p :: map text (q :: r)).
  assert (E : join " " (text p :: map text (q :: r)) = (text p ++ String " " (join " " (map text (q :: r))))%string) by reflexivity.
  rewrite E. unfold sh_tokens in *. rewrite (proj1 (tokens_piece p _ Hp)), IH. reflexivity.
Qed.
