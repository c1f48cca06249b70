From Verif Require Import Base BaseLemmas LogText LogTextSpec.
Open Scope list_scope.

Definition head_line (t : told) : string := (to_when t ++ ": " ++ to_what t)%string.
Definition field_line (f : string * string) : string := (pad ++ fst f ++ ": " ++ snd f)%string.
Definition told_lines (t : told) : list string := head_line t :: map field_line (to_fields t).
Fixpoint unlines (l : list string) : string := match l with [] => ""%string | x :: r => (x ++ nl ++ unlines r)%string end.

Lemma unlines_app : forall a b, unlines (a ++ b) = (unlines a ++ unlines b)%string.
Proof. induction a as [|x a IH]; intros b; [reflexivity|]. cbn [app unlines]. rewrite IH. now rewrite !app_assoc_s. Qed.

Definition shown (fs : list (string * string)) : list (string * string) :=
  flat_map (fun f => match label (fst f) with Some l => [(l, snd f)] | None => [] end) fs.

Lemma fold_shown : forall fs s, (fold_left (fun s f => match label (fst f) with Some l => (s ++ nl ++ pad ++ l ++ ": " ++ snd f)%string | None => s end) fs s ++ nl)%string
  = (s ++ nl ++ unlines (map field_line (shown fs)))%string.
Proof.
  induction fs as [|[k v] fs IH]; intros s; [cbn [fold_left shown flat_map map unlines]; now rewrite app_nil_r_s|]. cbn [fold_left shown flat_map fst snd]. rewrite IH. destruct (label k) as [l|]; [|reflexivity].
  cbn [app map unlines]. fold (shown fs). unfold field_line at 2. cbn [fst snd]. now rewrite !app_assoc_s.
Qed.

Lemma shown_told : forall e, shown (fields e) = told_fields e.
Proof. intros [t|t [ |x|x] m|s b h|s b|s b|t x]; reflexivity. Qed.
Lemma found_message : forall e, match find (fun f : string * string => String.eqb (fst f) "MESSAGE") (fields e) with Some f => snd f | None => ""%string end = message e.
Proof. intros [t|t [ |x|x] m|s b h|s b|s b|t x]; reflexivity. Qed.

Lemma entry_lines : forall v x, entry v x = unlines (told_lines (told_of v x)).
Proof.
  intros v [ts e]. unfold entry, readable. cbn [fst snd]. rewrite found_message. destruct v.
  - rewrite fold_shown, shown_told. unfold told_lines, head_line, told_of. cbn [to_when to_what to_fields unlines fst snd]. now rewrite !app_assoc_s.
  - unfold told_lines, head_line, told_of. cbn [to_when to_what to_fields unlines fst snd map]. now rewrite app_nil_r_s.
Qed.

Lemma log_lines : forall v l, log_text v l = unlines (flat_map (fun x => told_lines (told_of v x)) l).
Proof.
  induction l as [|x l IH]; [reflexivity|]. cbn [log_text fold_right flat_map]. rewrite unlines_app, <- entry_lines. fold (log_text v l). now rewrite IH.
Qed.

Lemma no_nl_split : forall a b r s, no_char "010" a = true -> no_char "010" b = true -> (a ++ nl ++ r)%string = (b ++ nl ++ s)%string -> a = b /\ r = s.
Proof.
  induction a as [|c a IH]; intros b r s Ha Hb E.
  - destruct b as [|d b]; [cbn in E; injection E as E; now split|]. cbn in E. injection E as <- E. unfold no_char in Hb. cbn in Hb. discriminate Hb.
  - destruct b as [|d b].
    + cbn in E. injection E as -> E. unfold no_char in Ha. cbn in Ha. discriminate Ha.
    + cbn [append] in E. injection E as <- E. unfold no_char in *. cbn [all_chars] in *. apply andb_true_iff in Ha as [_ Ha], Hb as [_ Hb].
      destruct (IH b r s Ha Hb E) as [-> ->]. now split.
Qed.

Lemma unlines_inj : forall a b, Forall (fun x => no_char "010" x = true) a -> Forall (fun x => no_char "010" x = true) b -> unlines a = unlines b -> a = b.
Proof.
  induction a as [|x a IH]; intros b Fa Fb E.
  - destruct b as [|y b]; [reflexivity|]. cbn [unlines] in E. destruct y; discriminate E.
  - destruct b as [|y b]; [cbn [unlines] in E; destruct x; discriminate E|]. inversion Fa; inversion Fb; subst. cbn [unlines] in E.
    apply no_nl_split in E as [-> E]; [|assumption|assumption]. f_equal. now apply IH.
Qed.

Lemma is_field_line : forall f, has_prefix " " (field_line f) = true.
Proof. intros f. reflexivity. Qed.
Lemma is_head_line : forall t, timestamp (to_when t) -> has_prefix " " (head_line t) = false.
Proof.
  intros t (L & _ & P). unfold head_line. destruct (to_when t) as [|c w]; [discriminate L|]. cbn [append]. cbn [has_prefix] in *. exact P.
Qed.

Lemma app_len_inj : forall a b r s, String.length a = String.length b -> (a ++ r)%string = (b ++ s)%string -> a = b /\ r = s.
Proof.
  induction a as [|c a IH]; intros [|d b] r s L E; cbn in L; try discriminate L; [now split|]. cbn [append] in E. injection E as <- E. injection L as L. destruct (IH b r s L E) as [-> ->]. now split.
Qed.

Lemma head_inj : forall t u, timestamp (to_when t) -> timestamp (to_when u) -> head_line t = head_line u -> to_when t = to_when u /\ to_what t = to_what u.
Proof.
  intros t u (L1 & _) (L2 & _) E. unfold head_line in E. apply app_len_inj in E as [E1 E2]; [|congruence]. split; [exact E1|]. cbn [append] in E2. now injection E2.
Qed.

Lemma colon_split : forall a b r s, no_char ":" a = true -> no_char ":" b = true -> (a ++ ": " ++ r)%string = (b ++ ": " ++ s)%string -> a = b /\ r = s.
Proof.
  induction a as [|c a IH]; intros b r s Ha Hb E.
  - destruct b as [|d b]; [cbn in E; injection E as E; now split|]. cbn in E. injection E as <- E. unfold no_char in Hb. cbn in Hb. discriminate Hb.
  - destruct b as [|d b].
    + cbn in E. injection E as -> E. unfold no_char in Ha. cbn in Ha. discriminate Ha.
    + cbn [append] in E. injection E as <- E. unfold no_char in *. cbn [all_chars] in *. apply andb_true_iff in Ha as [_ Ha], Hb as [_ Hb].
      destruct (IH b r s Ha Hb E) as [-> ->]. now split.
Qed.
Lemma field_inj : forall f g, no_char ":" (fst f) = true -> no_char ":" (fst g) = true -> field_line f = field_line g -> f = g.
Proof.
  intros [k v] [k' v'] A B E. unfold field_line in E. apply app_len_inj in E as [_ E]; [|reflexivity]. cbn [fst snd] in *. apply colon_split in E as [-> ->]; auto.
Qed.

Definition good_told (t : told) : Prop := timestamp (to_when t) /\ no_char "010" (to_what t) = true /\
  Forall (fun f => no_char ":" (fst f) = true /\ no_char "010" (fst f) = true /\ no_char "010" (snd f) = true) (to_fields t).

Lemma good_lines : forall t, good_told t -> Forall (fun x => no_char "010" x = true) (told_lines t).
Proof.
  intros t ((_ & T & _) & W & F). constructor.
  - unfold head_line. rewrite !no_char_app, T, W. reflexivity.
  - apply Forall_forall. intros x Hx. apply in_map_iff in Hx as (f & <- & Hf). rewrite Forall_forall in F. destruct (F f Hf) as (_ & F1 & F2).
    unfold field_line. rewrite !no_char_app, F1, F2. reflexivity.
Qed.

Lemma fields_until : forall f g r s, Forall (fun x : string * string => no_char ":" (fst x) = true) f -> Forall (fun x : string * string => no_char ":" (fst x) = true) g ->
  (forall x, head r = Some x -> has_prefix " " x = false) -> (forall x, head s = Some x -> has_prefix " " x = false) ->
  map field_line f ++ r = map field_line g ++ s -> f = g /\ r = s.
Proof.
  induction f as [|x f IH]; intros g r s Ff Fg Hr Hs E.
  - destruct g as [|y g]; [now split|]. cbn [map app] in E. subst r. specialize (Hr _ eq_refl). now rewrite is_field_line in Hr.
  - destruct g as [|y g]; [cbn [map app] in E; subst s; specialize (Hs _ eq_refl); now rewrite is_field_line in Hs|].
    cbn [map app] in E. assert (E1 : field_line x = field_line y) by (now apply (f_equal (@hd string ""%string)) in E). apply (f_equal (@tl string)) in E. cbn [tl] in E. inversion Ff; inversion Fg; subst. apply field_inj in E1; [|assumption|assumption]. subst y.
    destruct (IH g r s) as [-> ->]; auto.
Qed.

Lemma told_inj : forall a b, Forall good_told a -> Forall good_told b -> flat_map told_lines a = flat_map told_lines b -> a = b.
Proof.
  assert (HD : forall a x, Forall good_told a -> head (flat_map told_lines a) = Some x -> has_prefix " " x = false).
  { intros [|t a] x F H; [discriminate H|]. cbn in H. injection H as <-. inversion F as [|? ? G _]; subst. apply is_head_line. apply G. }
  induction a as [|t a IH]; intros b Fa Fb E.
  - destruct b; [reflexivity|discriminate E].
  - destruct b as [|u b]; [discriminate E|]. inversion Fa as [|? ? Ga Fa']; inversion Fb as [|? ? Gb Fb']; subst.
    cbn [flat_map told_lines app] in E. assert (E1 : head_line t = head_line u) by (now apply (f_equal (@hd string ""%string)) in E). apply (f_equal (@tl string)) in E. cbn [tl] in E. rename E into E2. destruct Ga as (T1 & W1 & F1), Gb as (T2 & W2 & F2).
    apply head_inj in E1 as [E1 E3]; [|assumption|assumption].
    apply fields_until in E2 as [E2 E4].
    + rewrite (IH b Fa' Fb' E4). f_equal. destruct t, u; cbn in *. congruence.
    + eapply Forall_impl; [|exact F1]. cbn beta. tauto.
    + eapply Forall_impl; [|exact F2]. cbn beta. tauto.
    + intros x. now apply HD.
    + intros x. now apply HD.
Qed.

Lemma told_good : forall v ts e, timestamp ts -> one_line e -> good_told (told_of v (ts, e)).
Proof.
  intros v ts e T (M & F). split; [exact T|]. split; [exact M|]. cbn [told_of to_fields]. destruct v; [|constructor].
  apply Forall_forall. intros [l x] H. cbn [fst snd]. specialize (F l x H). 
  assert (L : In l ["transaction ID"; "bundle hash"; "bundle version"; "slot"; "bootname"]%string).
  { destruct e; cbn [told_fields snd] in H; cbn [In] in H; repeat (destruct H as [H|H]; [injection H as <- <-; cbn; tauto|]); destruct H. }
  cbn [In] in L. repeat (destruct L as [<-|L]; [repeat split; assumption || reflexivity|]). destruct L.
Qed.

Lemma c74_read_back_ok : forall verbose l l', plain_log l -> plain_log l' -> log_text verbose l = log_text verbose l' ->
  map (told_of verbose) l = map (told_of verbose) l'.
Proof.
  assert (FG : forall v l, plain_log l -> Forall good_told (map (told_of v) l)).
  { intros v l P. apply Forall_forall. intros t H. apply in_map_iff in H as ([ts e] & <- & H). destruct (P ts e H). now apply told_good. }
  assert (FM : forall v (l : list (string * event)), flat_map (fun x => told_lines (told_of v x)) l = flat_map told_lines (map (told_of v) l)).
  { intros v l. induction l as [|x l IH]; [reflexivity|]. cbn [flat_map map]. now rewrite IH. }
  intros v l l' P P' E. rewrite !log_lines, !FM in E.
  apply told_inj; [now apply FG|now apply FG|]. apply unlines_inj; [| |exact E];
    apply Forall_forall; intros x H; apply in_flat_map in H as (t & Ht & Hx);
    pose proof (FG v _ P) as G; pose proof (FG v _ P') as G'; rewrite Forall_forall in G, G';
    [specialize (G t Ht)|specialize (G' t Ht)]; [apply good_lines in G; rewrite Forall_forall in G; now apply G|apply good_lines in G'; rewrite Forall_forall in G'; now apply G'].
Qed.

(** without the details: one line for each event *)
Lemma c74_short_ok : forall l, log_text false l = String.concat "" (map (fun x => fst x ++ ": " ++ message (snd x) ++ nl)%string l).
Proof.
  induction l as [|x l IH]; [reflexivity|]. cbn [log_text fold_right]. fold (log_text false l). rewrite IH, entry_lines.
  unfold told_lines, head_line, told_of. cbn [to_when to_what to_fields unlines fst snd map]. cbn [map String.concat].
  destruct l as [|y l]; [cbn [map String.concat]; now rewrite !app_nil_r_s, !app_assoc_s|]. cbn [map]. cbn [append]. rewrite !app_assoc_s. cbn [append]. now rewrite ?app_nil_r_s, ?app_assoc_s.
Qed.

(** a line break in the version of a bundle makes one event look like two *)
Lemma c74_forged_refuted : exists l l', log_text true l = log_text true l' /\ List.length l <> List.length l' /\
  (forall ts e, In (ts, e) (l ++ l') -> timestamp ts) /\ (forall ts e, In (ts, e) l' -> one_line e).
Proof.
  set (ts := "2026-01-01T00:00:00Z"%string). set (t := "3f8a0c5e"%string).
  exists [(ts, EvDone t Succeeded (Some (mkMfields (Some "aa"%string) None (Some ("1.0" ++ nl ++ pad ++ "transaction ID: " ++ t ++ nl ++ ts ++ ": Installation " ++ t ++ " started")%string))))],
    [(ts, EvDone t Succeeded (Some (mkMfields (Some "aa"%string) None (Some "1.0"%string)))); (ts, EvStarted t)].
  split; [vm_compute; reflexivity|]. split; [discriminate|]. split.
  - intros ts' e [H|[H|[H|[]]]]; injection H as <- _; repeat split.
  - intros ts' e [H|[H|[]]]; injection H as <- <-; (split; [reflexivity|]); intros k v Hin; cbn in Hin; repeat (destruct Hin as [Hin|Hin]; [injection Hin as <- <-; reflexivity|]); destruct Hin.
Qed.

(** installations: started, then how it ended; the log tells the result; what was mounted is unmounted *)
Lemma first_error_none : forall l, first_error l = None <-> Forall (fun o => o = None) l.
Proof.
  induction l as [|[e|] l IH]; cbn [first_error]; split; intros H; try constructor; try discriminate; try reflexivity; try (now apply IH); inversion H; [discriminate|now apply IH].
Qed.

Lemma c74_installation_ok : forall a, exists ok x m un, do_install_bundle a = (ok, [EvStarted (a_txn a); EvDone (a_txn a) x m], un) /\
  (ok = true <-> x = Succeeded) /\
  (ok = true <-> Forall (fun o => o = None) [a_mounts a; a_check a; a_hash a; a_crypt a; a_mount a; a_group a; a_pre a; a_compat a; a_version a; a_handler a; a_post a]) /\
  (forall text, x = Rejected text <-> exists before k after, [a_mounts a; a_check a; a_hash a; a_crypt a; a_mount a; a_group a; a_pre a; a_compat a; a_version a; a_handler a; a_post a] = before ++ Some (k, text) :: after /\
     Forall (fun o => o = None) before /\ k <> KOther) /\
  (Forall (fun o => o = None) [a_mounts a; a_check a; a_hash a; a_crypt a; a_mount a] -> un = true) /\
  (a_mounts a <> None \/ a_check a <> None -> m = None).
Proof.
  intros a. set (steps := [a_mounts a; a_check a; a_hash a; a_crypt a; a_mount a; a_group a; a_pre a; a_compat a; a_version a; a_handler a; a_post a]).
  assert (FE : forall text l, (exists k, first_error l = Some (k, text) /\ k <> KOther) <-> exists before k after, l = before ++ Some (k, text) :: after /\ Forall (fun o => o = None) before /\ k <> KOther).
  { intros text l. induction l as [|o l IH].
    - split; [intros (k & H & _); discriminate H|intros ([|x b] & k & af & H & _); discriminate H].
    - destruct o as [[k' t']|]; cbn [first_error].
      + split.
        * intros (k & H & N). injection H as -> ->. exists [], k, l. repeat split; auto.
        * intros ([|x b] & k & af & H & F & N); cbn in H; [injection H as -> -> _; eauto|]. injection H as <- _. inversion F. discriminate.
      + rewrite IH. split; intros (b & k & af & H & F & N).
        * exists (None :: b), k, af. split; [now rewrite H|]. split; [now constructor|exact N].
        * destruct b as [|x b]; cbn in H; [discriminate H|]. injection H as <- H. inversion F. exists b, k, af. auto. }
  assert (ALL : forall e, first_error steps = e -> exists x, done_event (a_txn a) e = EvDone (a_txn a) x /\ (e = None <-> x = Succeeded) /\
     (forall text, x = Rejected text <-> exists k, e = Some (k, text) /\ k <> KOther)).
  { intros e _. unfold done_event. destruct e as [[[] t]|]; eexists; (split; [reflexivity|]); split; try (split; intros H; discriminate H || reflexivity); intros text; split.
    - intros [= ->]. exists KRejected. split; [reflexivity|discriminate].
    - intros (k & [= _ ->] & _). reflexivity.
    - intros [= ->]. exists KCompat. split; [reflexivity|discriminate].
    - intros (k & [= _ ->] & _). reflexivity.
    - discriminate.
    - intros (k & [= <- _] & N). now contradiction N.
    - discriminate.
    - intros (k & H & _). discriminate H. }
  destruct (ALL _ eq_refl) as (x & X1 & X2 & X3).
  assert (OK : exists m un, do_install_bundle a = (match first_error steps with None => true | Some _ => false end, [EvStarted (a_txn a); done_event (a_txn a) (first_error steps) m], un) /\
     (Forall (fun o => o = None) [a_mounts a; a_check a; a_hash a; a_crypt a; a_mount a] -> un = true) /\ (a_mounts a <> None \/ a_check a <> None -> m = None)).
  { subst steps. unfold do_install_bundle. cbn [first_error].
    destruct (a_mounts a) as [e|]; [do 2 eexists; split; [reflexivity|]; split; [intros H; inversion H; discriminate|reflexivity]|].
    destruct (a_check a) as [e|]; [do 2 eexists; split; [reflexivity|]; split; [intros H; inversion H as [|? ? ? H2]; inversion H2; discriminate|reflexivity]|].
    destruct (a_hash a) as [e|]; [do 2 eexists; split; [reflexivity|]; split; [intros H; rewrite Forall_forall in H; specialize (H (Some e)); cbn in H; discriminate H; tauto|intros [H|H]; now contradiction H]|].
    destruct (a_crypt a) as [e|]; [do 2 eexists; split; [reflexivity|]; split; [intros H; rewrite Forall_forall in H; specialize (H (Some e)); cbn in H; discriminate H; tauto|intros [H|H]; now contradiction H]|].
    destruct (a_mount a) as [e|]; [do 2 eexists; split; [reflexivity|]; split; [intros H; rewrite Forall_forall in H; specialize (H (Some e)); cbn in H; discriminate H; tauto|intros [H|H]; now contradiction H]|].
    do 2 eexists. split; [reflexivity|]. split; [reflexivity|]. intros [H|H]; now contradiction H. }
  destruct OK as (m & un & E & U & M). exists (match first_error steps with None => true | Some _ => false end), x, m, un.
  split; [rewrite E, X1; reflexivity|].
  split; [rewrite <- X2; destruct (first_error steps); split; intros H; congruence|].
  split; [rewrite <- first_error_none; destruct (first_error steps); split; intros H; congruence|].
  split; [intros text; rewrite X3; apply FE|]. now split.
Qed.

(** ** what the lines say *)
Lemma stake_short : forall t, short_of t (stake 8 t).
Proof.
  intros t. unfold short_of. assert (G : forall n t, exists r, t = (stake n t ++ r)%string /\ (String.length t <= n -> r = ""%string) /\ (n < String.length t -> String.length (stake n t) = n)).
  { induction n as [|n IH]; intros s; [exists s; split; [destruct s; reflexivity|]; split; [destruct s; cbn; [reflexivity|lia]|destruct s; reflexivity]|].
    destruct s as [|c s]; [exists ""%string; split; [reflexivity|]; split; [reflexivity|cbn; lia]|].
    destruct (IH s) as (r & E & A & B). exists r. cbn [stake String.append String.length]. split; [now rewrite <- E|]. split; intros H; [apply A; lia|f_equal; apply B; lia]. }
  destruct (G 8 t) as (r & E & A & B). destruct (Nat.le_gt_cases (String.length t) 8) as [L|L].
  - left. split; [exact L|]. rewrite (A L) in E. rewrite E at 2. now rewrite app_nil_r_s.
  - right. split; [exact (B L)|]. exists r. exact E.
Qed.
Lemma c74_lines_ok : forall ts e, exists text, log_text false [(ts, e)] = (ts ++ ": " ++ text ++ nl)%string /\ line_says e text.
Proof.
  intros ts e. exists (message e). split.
  - rewrite c74_short_ok. cbn [map String.concat fst snd]. reflexivity.
  - destruct e as [t|t x m|s b h|s b|s b|ty x]; cbn [message line_says]; try reflexivity.
    + exists (stake 8 t). split; [|reflexivity]. apply stake_short.
    + exists (stake 8 t). split; [apply stake_short|]. destruct x; reflexivity.
Qed.
