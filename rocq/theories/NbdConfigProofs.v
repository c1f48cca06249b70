(** Proofs for C49. *)
From Verif Require Import Base BaseLemmas KeyFile KeyFileLemmas EnvKey Nbd NbdSpec NbdProofs NbdConfig NbdConfigSpec.

(** * Splitting *)
Lemma split1_some : forall c s a b, split_max c 1 s = [a; b] -> s = (a ++ String c b)%string /\ no_char c a = true.
Proof.
  intros c s. induction s as [|x r IH]; intros a b H; [discriminate|]. cbn in H.
  destruct (Ascii.eqb_spec x c) as [->|N].
  - injection H as <- <-. auto.
  - change ((fix go (s : string) : list string := match s with
         | EmptyString => [EmptyString]
         | String a r => if Ascii.eqb a c then EmptyString :: [r]
             else match go r with w :: ws => String a w :: ws | [] => [String a EmptyString] end end) r)
      with (split_max c 1 r) in H.
    destruct (split_max c 1 r) as [|w ws]; [discriminate|]. injection H as <- ->.
    destruct (IH _ _ eq_refl) as [-> Hn]. split; [reflexivity|]. unfold no_char. cbn. rewrite (proj2 (Ascii.eqb_neq x c) N). exact Hn.
Qed.

Lemma split1_make : forall c a b, no_char c a = true -> split_max c 1 (a ++ String c b) = [a; b].
Proof.
  intros c a b. induction a as [|x r IH]; intros H.
  - cbn. now rewrite Ascii.eqb_refl.
  - unfold no_char in H. cbn in H. apply andb_prop in H as [H1 H2]. apply negb_true_iff in H1.
    specialize (IH H2). cbn in IH |- *. rewrite H1. now rewrite IH.
Qed.

Lemma strsplit2_some : forall c s a b, g_strsplit_max c 2 s = [a; b] -> s = (a ++ String c b)%string /\ no_char c a = true.
Proof. intros c [|x s] a b H; [discriminate|]. now apply split1_some. Qed.
Lemma strsplit2_make : forall c a b, no_char c a = true -> g_strsplit_max c 2 (a ++ String c b) = [a; b].
Proof.
  intros c a b H. unfold g_strsplit_max. destruct (a ++ String c b)%string eqn:E; [destruct a; discriminate|].
  rewrite <- E. now apply split1_make.
Qed.

Lemma split_header_some : forall s a b, split_header s = Some (a, b) -> s = (a ++ ": " ++ b)%string.
Proof.
  induction s as [|c r IH]; intros a b H; [discriminate|]. cbn [split_header] in H.
  destruct (has_prefix ": " (String c r)) eqn:E.
  - injection H as <- <-. destruct r as [|d r]; [cbn [has_prefix] in E; rewrite andb_false_r in E; discriminate|].
    cbn [has_prefix] in E. rewrite andb_true_r in E. apply andb_prop in E as [E1 E2]. apply Ascii.eqb_eq in E1, E2. subst. reflexivity.
  - destruct (split_header r) as [[a' b']|]; [|discriminate]. injection H as <- <-. now rewrite (IH _ _ eq_refl).
Qed.

Lemma split_header_make : forall a b, no_char ":" a = true -> split_header (a ++ ": " ++ b) = Some (a, b).
Proof.
  intros a b. induction a as [|x r IH]; intros H; [reflexivity|].
  unfold no_char in H. cbn [all_chars] in H. apply andb_prop in H as [H1 H2]. apply negb_true_iff in H1.
  cbn [String.append split_header has_prefix]. rewrite Ascii.eqb_sym, H1. cbn [andb].
  change (r ++ String ":" (String " " b))%string with (r ++ ": " ++ b)%string. now rewrite (IH H2).
Qed.

Lemma strdown_no_colon : forall a, no_char ":" (strdown a) = true -> no_char ":" a = true.
Proof.
  induction a as [|c r IH]; intros H; [reflexivity|]. unfold no_char in *. cbn in *.
  apply andb_prop in H as [H1 H2]. rewrite (IH H2), andb_true_r. apply negb_true_iff in H1. apply negb_true_iff.
  destruct (Ascii.eqb_spec c ":") as [->|]; [discriminate H1|reflexivity].
Qed.

(** * Headers *)
Lemma content_range_some : forall v n, content_range v = Some n ->
  exists unit num, no_char " " unit = true /\ v = (unit ++ " 0-3/" ++ num)%string /\ parse_size num = Some n.
Proof.
  intros v n H. unfold content_range in H.
  destruct (g_strsplit_max " " 2 v) as [|u [|e [|]]] eqn:E; try discriminate.
  destruct (g_strsplit_max "/" 2 e) as [|r [|m [|]]] eqn:E'; try discriminate.
  apply strsplit2_some in E as [-> Hu]. apply strsplit2_some in E' as [-> _].
  destruct (String.eqb_spec r "0-3") as [->|]; [|discriminate]. cbn [negb orb] in H.
  destruct (String.eqb m "*"); [discriminate|]. exists u, m. auto.
Qed.

Lemma content_range_make : forall unit num n, no_char " " unit = true -> parse_size num = Some n ->
  content_range (unit ++ " 0-3/" ++ num) = Some n.
Proof.
  intros unit num n Hu Hn. unfold content_range.
  change (unit ++ " 0-3/" ++ num)%string with (unit ++ String " " ("0-3" ++ String "/" num))%string.
  rewrite strsplit2_make by exact Hu. rewrite strsplit2_make by reflexivity.
  rewrite String.eqb_refl. cbn [negb orb]. destruct (String.eqb_spec num "*") as [->|]; [discriminate Hn|exact Hn].
Qed.

Lemma header_cb_cases : forall size h,
  (range_header h -> (exists n, header_cb size h = Some n /\ size_header h n) \/ header_cb size h = None /\ forall n, ~ size_header h n) /\
  (~ range_header h -> header_cb size h = Some size).
Proof.
  intros size h. unfold header_cb. split.
  - intros (name & v & Hn & Hv).
    assert (Hc : no_char ":" name = true) by (apply strdown_no_colon; rewrite Hn; reflexivity).
    rewrite Hv, split_header_make, Hn by exact Hc. change (String.eqb "content-range" "content-range") with true. cbv iota.
    destruct (content_range v) as [n|] eqn:E.
    + left. exists n. split; [reflexivity|]. destruct (content_range_some _ _ E) as (u & m & A & B & C).
      exists name, u, m. rewrite Hv, B. auto.
    + right. split; [reflexivity|]. intros n (name' & u & m & A & B & C & D).
      assert (Hc' : no_char ":" name' = true) by (apply strdown_no_colon; rewrite A; reflexivity).
      rewrite Hv in C. pose proof (split_header_make name v Hc) as S1. rewrite C, split_header_make in S1 by exact Hc'.
      assert (Ev : v = (u ++ " 0-3/" ++ m)%string) by congruence. rewrite Ev in E. rewrite (content_range_make _ _ _ B D) in E. discriminate.
  - intros Hr. destruct (split_header (chomp h)) as [[name v]|] eqn:E; [|reflexivity].
    destruct (String.eqb_spec (strdown name) "content-range") as [En|]; [|reflexivity].
    exfalso. apply Hr. exists name, v. split; [exact En|]. now apply split_header_some.
Qed.

Lemma range_dec : forall h, range_header h \/ ~ range_header h.
Proof.
  intros h. destruct (split_header (chomp h)) as [[name v]|] eqn:E.
  - destruct (String.eqb_spec (strdown name) "content-range") as [En|Nn].
    + left. exists name, v. split; [exact En|]. now apply split_header_some.
    + right. intros (name' & v' & A & B).
      rewrite B, split_header_make in E by (apply strdown_no_colon; rewrite A; reflexivity). congruence.
  - right. intros (name' & v' & A & B).
    rewrite B, split_header_make in E by (apply strdown_no_colon; rewrite A; reflexivity). congruence.
Qed.

Lemma size_header_range : forall h n, size_header h n -> range_header h.
Proof. intros h n (name & u & m & A & _ & B & _). exists name, (u ++ " 0-3/" ++ m)%string. auto. Qed.

Lemma size_header_unique : forall h n m, size_header h n -> size_header h m -> n = m.
Proof.
  intros h n m Hn Hm. destruct (header_cb_cases 0 h) as [H _].
  destruct (H (size_header_range _ _ Hn)) as [(k & A & B)|[_ C]]; [|now apply C in Hn].
  assert (forall k', size_header h k' -> header_cb 0 h = Some k') as Hk.
  { intros k' (name & u & x & P & Q & R & T). unfold header_cb.
    rewrite R, split_header_make by (apply strdown_no_colon; rewrite P; reflexivity).
    rewrite P, String.eqb_refl. now apply content_range_make. }
  pose proof (Hk _ Hn). pose proof (Hk _ Hm). congruence.
Qed.

Lemma header_cbs_spec : forall hs size size' ok, header_cbs size hs = (size', ok) ->
  (size' = size \/ exists h, In h hs /\ size_header h size') /\
  (ok = true -> forall h, In h hs -> range_header h -> exists m, size_header h m).
Proof.
  induction hs as [|h hs IH]; intros size size' ok E; cbn in E.
  - injection E as <- <-. split; [now left|]. intros _ h [].
  - destruct (header_cb_cases size h) as [H1 H2]. destruct (range_dec h) as [Hr|Hr].
    + destruct (H1 Hr) as [(n & A & B)|[A B]]; rewrite A in E.
      * destruct (IH _ _ _ E) as [[->|(h' & C & D)] F].
        { split; [right; exists h; split; [now left|exact B]|]. intros Ho h' [<-|Hi]; [eauto|auto]. }
        { split; [right; exists h'; split; [now right|exact D]|]. intros Ho h'' [<-|Hi]; [eauto|auto]. }
      * injection E as <- <-. split; [now left|discriminate].
    + rewrite (H2 Hr) in E. destruct (IH _ _ _ E) as [[->|(h' & C & D)] F].
      { split; [now left|]. intros Ho h' [<-|Hi]; [contradiction|auto]. }
      { split; [right; exists h'; split; [now right|exact D]|]. intros Ho h'' [<-|Hi]; [contradiction|auto]. }
Qed.

Lemma header_cbs_make : forall hs size n, (forall h, In h hs -> range_header h -> size_header h n) ->
  (size = n \/ exists h, In h hs /\ range_header h) -> header_cbs size hs = (n, true).
Proof.
  induction hs as [|h hs IH]; intros size n H Hs; cbn.
  - destruct Hs as [->|(h & [] & _)]. reflexivity.
  - destruct (header_cb_cases size h) as [H1 H2]. destruct (range_dec h) as [Hr|Hr].
    + pose proof (H h (or_introl eq_refl) Hr) as Hn. destruct (H1 Hr) as [(m & A & B)|[A B]]; [|now apply B in Hn].
      rewrite A. apply IH; [intros; apply H; [now right|assumption]|]. left. eapply size_header_unique; eauto.
    + rewrite (H2 Hr). apply IH; [intros; apply H; [now right|assumption]|].
      destruct Hs as [->|(h' & [<-|Hi] & Hh)]; [now left|contradiction|]. right. eauto.
Qed.

(** * The loop *)
Lemma wc4 : forall cs b ok, write_chunks 4 "" cs = (b, ok) ->
  (ok = true -> b = String.concat "" cs) /\ (ok = false -> 4 < String.length (String.concat "" cs)).
Proof.
  intros cs b ok E. destruct (write_chunks_spec cs 4 "") as [H1 H2]; [cbn; lia|]. rewrite E in H1, H2. cbn [fst snd String.append] in *.
  split; intros Ho; [now apply H1|]. specialize (H2 Ho). lia.
Qed.

Lemma loop_spec : forall rs errors size r, configure_loop errors size rs = Some r -> errors <= 5 ->
  exists pre c post, rs = pre ++ c :: post /\ errors + List.length pre <= 5 /\
    (cr_error r = false -> usable c /\ forall h, In h (g_headers c) -> range_header h -> exists m, size_header h m) /\
    (cr_error r = true -> cr_code r = if (g_http c =? 206)%N then None else Some (g_http c)) /\
    (forall n, cr_size r = Some n -> n <> 0%N /\ (n = size \/ exists c' h, In c' (pre ++ [c]) /\ In h (g_headers c') /\ size_header h n)).
Proof.
  induction rs as [|c rs IH]; intros errors size r E He; [discriminate|]. cbn [configure_loop] in E.
  destruct (header_cbs size (g_headers c)) as [size' hok] eqn:Eh.
  destruct (if hok then write_chunks 4 "" (g_chunks c) else (""%string, true)) as [buf bok] eqn:Eb.
  destruct (header_cbs_spec _ _ _ _ Eh) as [Hsz Hrg].
  assert (Hfin : forall err, (err = false -> g_ok c && hok && bok = true) -> r = finish_configure (g_http c) buf err size' ->
    exists pre c0 post, c :: rs = pre ++ c0 :: post /\ errors + List.length pre <= 5 /\
    (cr_error r = false -> usable c0 /\ forall h, In h (g_headers c0) -> range_header h -> exists m, size_header h m) /\
    (cr_error r = true -> cr_code r = if (g_http c0 =? 206)%N then None else Some (g_http c0)) /\
    (forall n, cr_size r = Some n -> n <> 0%N /\ (n = size \/ exists c' h, In c' (pre ++ [c0]) /\ In h (g_headers c') /\ size_header h n))).
  { intros err Herr ->. exists [], c, rs. split; [reflexivity|]. split; [cbn; lia|].
    assert (Hs : forall n, (if (size' =? 0)%N then None else Some size') = Some n -> n <> 0%N /\
      (n = size \/ exists c' h, In c' ([] ++ [c]) /\ In h (g_headers c') /\ size_header h n)).
    { intros n Hn. destruct (N.eqb_spec size' 0); [discriminate|]. injection Hn as <-. split; [assumption|].
      destruct Hsz as [->|(h & A & B)]; [now left|]. right. exists c, h. cbn. auto. }
    unfold finish_configure. destruct (N.eqb_spec (g_http c) 206) as [E2|N2]; cbn [negb].
    2:{ cbn [cr_error cr_code cr_size]. repeat split; auto; try discriminate; apply Hs; assumption. }
    destruct (Nat.eqb_spec (String.length buf) 4) as [E4|N4]; cbn [negb].
    2:{ cbn [cr_error cr_code cr_size]. repeat split; auto; try discriminate; apply Hs; assumption. }
    destruct err; cbn [cr_error cr_code cr_size].
    { repeat split; auto; try discriminate; apply Hs; assumption. }
    specialize (Herr eq_refl). apply andb_prop in Herr as [Herr Hb]. apply andb_prop in Herr as [Ho Hh]. subst hok bok.
    split; [|split; [discriminate|exact Hs]]. intros _. split; [|now apply Hrg]. apply wc4 in Eb as [Eb _].
    rewrite (Eb eq_refl) in E4. repeat split; auto. }
  destruct (g_ok c && hok && bok) eqn:Eok.
  { injection E as <-. apply (Hfin false); auto. }
  destruct (N.eqb_spec (g_http c) 404) as [H4|N4].
  { injection E as <-. apply (Hfin true); [discriminate|reflexivity]. }
  destruct (Nat.leb_spec 5 errors) as [H5|H5].
  { injection E as <-. apply (Hfin true); [discriminate|reflexivity]. }
  destruct (IH _ _ _ E) as (pre & c' & post & A & B & C & D & F); [lia|].
  exists (c :: pre), c', post. split; [now rewrite A|]. split; [cbn; lia|]. split; [exact C|]. split; [exact D|].
  intros n Hn. destruct (F n Hn) as [G [->|(c0 & h & I & J & K)]]; (split; [exact G|]).
  - destruct Hsz as [->|(h & I & J)]; [now left|]. right. exists c, h. cbn. auto.
  - right. exists c0, h. cbn. auto.
Qed.

Lemma loop_none : forall rs errors size, configure_loop errors size rs = None -> errors <= 5 -> errors + List.length rs <= 5.
Proof.
  induction rs as [|c rs IH]; intros errors size E He; [cbn; lia|]. cbn [configure_loop] in E.
  destruct (header_cbs size (g_headers c)) as [size' hok].
  destruct (if hok then write_chunks 4 "" (g_chunks c) else (""%string, true)) as [buf bok].
  destruct (g_ok c && hok && bok); [discriminate|]. destruct (g_http c =? 404)%N; [discriminate|].
  destruct (Nat.leb_spec 5 errors); [discriminate|]. specialize (IH _ _ E). cbn. lia.
Qed.

(** * C49 *)
Lemma c49_accepted_ok : forall rs n, nbd_configure rs = Some (CfgOk n) ->
  n <> 0%N /\ exists pre c post, rs = pre ++ c :: post /\ List.length pre <= 5 /\ usable c /\
    (forall h, In h (g_headers c) -> range_header h -> exists m, size_header h m) /\
    (exists c' h, In c' (pre ++ [c]) /\ In h (g_headers c') /\ size_header h n).
Proof.
  intros rs n H. unfold nbd_configure in H. destruct (configure_loop 0 0 rs) as [r|] eqn:E; [|discriminate].
  destruct (cr_error r) eqn:Ee; [discriminate|]. destruct (cr_size r) as [m|] eqn:Es; [|discriminate]. injection H as ->.
  destruct (loop_spec _ _ _ _ E) as (pre & c & post & A & B & C & _ & D); [lia|].
  destruct (C Ee) as [C1 C2]. destruct (D n Es) as [D1 D2]. split; [exact D1|].
  exists pre, c, post. repeat split; auto; try apply C1. destruct D2 as [->|D2]; [congruence|exact D2].
Qed.

Lemma c49_first_ok : forall c rs n, usable c -> n <> 0%N ->
  (forall h, In h (g_headers c) -> range_header h -> size_header h n) -> (exists h, In h (g_headers c) /\ range_header h) ->
  nbd_configure (c :: rs) = Some (CfgOk n).
Proof.
  intros c rs n (Ho & H2 & Hb) Hn Hh He. unfold nbd_configure. cbn [configure_loop].
  rewrite (header_cbs_make _ 0 n Hh (or_intror He)).
  destruct (write_chunks 4 "" (g_chunks c)) as [buf bok] eqn:Ew. destruct (wc4 _ _ _ Ew) as [W1 W2]. fold (g_body c) in W1, W2.
  destruct bok; [|specialize (W2 eq_refl); lia]. rewrite Ho. cbn [andb].
  unfold finish_configure. rewrite H2. cbn [N.eqb Pos.eqb negb]. rewrite (W1 eq_refl), Hb. cbn [Nat.eqb negb cr_error cr_size].
  destruct (N.eqb_spec n 0); [contradiction|reflexivity].
Qed.

Lemma c49_answered_ok : forall rs, 6 <= List.length rs -> nbd_configure rs <> None.
Proof.
  intros rs H E. unfold nbd_configure in E. destruct (configure_loop 0 0 rs) eqn:El; [discriminate|].
  apply loop_none in El; lia.
Qed.

Lemma c49_errors_ok : forall rs e, nbd_configure rs = Some (CfgErr e) ->
  exists pre c post, rs = pre ++ c :: post /\ List.length pre <= 5 /\
    (e = NoContent -> g_http c = 204%N) /\ (e = NotModified -> g_http c = 304%N) /\
    (e = Unauthorized -> g_http c = 401%N) /\ (e = NotFound -> g_http c = 404%N) /\
    (e = ConfigFailed -> ~ In (g_http c) [204; 304; 401; 404]%N).
Proof.
  intros rs e H. unfold nbd_configure in H. destruct (configure_loop 0 0 rs) as [r|] eqn:E; [|discriminate].
  destruct (loop_spec _ _ _ _ E) as (pre & c & post & A & B & C & D & _); [lia|]. exists pre, c, post. split; [exact A|]. split; [exact B|].
  destruct (cr_error r) eqn:Ee.
  - specialize (D eq_refl). injection H as He. rewrite D in He.
    destruct (N.eqb_spec (g_http c) 206) as [E2|N2].
    + cbn in He. subst e. repeat split; try discriminate. intros _. rewrite E2. cbn. intuition discriminate.
    + destruct (N.eqb_spec (g_http c) 204); [subst e; repeat split; auto; discriminate|].
      destruct (N.eqb_spec (g_http c) 304); [subst e; repeat split; auto; discriminate|].
      destruct (N.eqb_spec (g_http c) 401); [subst e; repeat split; auto; discriminate|].
      destruct (N.eqb_spec (g_http c) 404); [subst e; repeat split; auto; discriminate|].
      subst e. repeat split; try discriminate. intros _ Hi. cbn in Hi. intuition congruence.
  - destruct (cr_size r); [discriminate|]. injection H as <-. destruct (C eq_refl) as [(_ & H2 & _) _].
    repeat split; try discriminate. intros _. rewrite H2. cbn. intuition discriminate.
Qed.

(** the size announced by an attempt which failed is used if the successful one has none *)
Lemma c49_stale_size_refuted : exists rs c n, nbd_configure rs = Some (CfgOk n) /\ last rs c = c /\ In c rs /\ usable c /\
  forall h m, In h (g_headers c) -> ~ size_header h m.
Proof.
  exists [mkCfgres false 206 ["HTTP/1.1 206 Partial Content"; "Content-Range: bytes 0-3/123456"]%string [];
          mkCfgres true 206 ["HTTP/1.1 206 Partial Content"]%string ["hsqs"%string]],
    (mkCfgres true 206 ["HTTP/1.1 206 Partial Content"]%string ["hsqs"%string]), 123456%N.
  split; [vm_compute; reflexivity|]. split; [reflexivity|]. split; [right; now left|]. split; [repeat split|].
  intros h m [<-|[]] Hs. apply size_header_range in Hs as (name & v & A & B).
  assert (split_header (chomp "HTTP/1.1 206 Partial Content") = None) as En by (vm_compute; reflexivity).
  rewrite B, split_header_make in En by (apply strdown_no_colon; rewrite A; reflexivity). discriminate.
Qed.

(** what a size header announces is a decimal number below 2^64; larger ones are refused *)
Lemma parse_size_print : forall n m, parse_size (print_num 10 n) = Some m <-> m = n /\ (n < 2 ^ 64)%N.
Proof.
  intros n m. pose proof (print_num_chars 10 n ltac:(lia)) as C. pose proof (horner_print 10 n ltac:(lia)) as Hh.
  unfold parse_size.
  destruct (print_num 10 n) as [|c s] eqn:E; [now destruct (print_num_nonempty 10 n)|].
  assert (C' := C). cbn [all_chars] in C'. apply andb_true_iff in C' as [C1 _].
  destruct (is_digit_not_special 10 c C1) as (W & M1 & M2 & _).
  assert (skip_space (String c s) = String c s) as SP by (cbn [skip_space]; now rewrite W).
  cbv zeta. rewrite SP, M1, M2. cbn [orb]. rewrite Hh.
  destruct (N.ltb_spec ullong_max n) as [L|L].
  - destruct (strtoull_all (String c s)); split; try discriminate; intros (_ & B); unfold ullong_max in L; lia.
  - assert (n < 2 ^ 64)%N as B by (unfold ullong_max in L; lia).
    rewrite <- E, strtoull_all_print by exact B. split; [intros X; split; [congruence|exact B]|intros (-> & _); reflexivity].
Qed.

Lemma size_header_decimal : forall h name unit n m, strdown name = "content-range"%string -> no_char " " unit = true ->
  chomp h = (name ++ ": " ++ unit ++ " 0-3/" ++ print_num 10 n)%string ->
  (size_header h m <-> m = n /\ (n < 2 ^ 64)%N).
Proof.
  intros h name unit n m Hn Hu Hh. rewrite <- parse_size_print. split.
  - intros Hs. pose proof Hs as (name' & u' & x & P & Q & R & T).
    rewrite Hh in R.
    pose proof (split_header_make name (unit ++ " 0-3/" ++ print_num 10 n) ltac:(apply strdown_no_colon; rewrite Hn; reflexivity)) as S1.
    rewrite R, split_header_make in S1 by (apply strdown_no_colon; rewrite P; reflexivity).
    assert (Ev : (u' ++ " 0-3/" ++ x = unit ++ " 0-3/" ++ print_num 10 n)%string) by congruence.
    pose proof (content_range_make _ _ _ Q T) as CR. rewrite Ev in CR.
    apply content_range_some in CR as (u2 & n2 & A & B & D).
    pose proof (strsplit2_make " " unit ("0-3" ++ String "/" (print_num 10 n)) Hu) as X1.
    pose proof (strsplit2_make " " u2 ("0-3" ++ String "/" n2) A) as X2.
    change (unit ++ String " " ("0-3" ++ String "/" (print_num 10 n)))%string with (unit ++ " 0-3/" ++ print_num 10 n)%string in X1.
    change (u2 ++ String " " ("0-3" ++ String "/" n2))%string with (u2 ++ " 0-3/" ++ n2)%string in X2.
    rewrite B, X2 in X1. assert (n2 = print_num 10 n) as -> by (cbn [String.append] in X1; congruence). exact D.
  - intros T. exists name, unit, (print_num 10 n). auto.
Qed.
