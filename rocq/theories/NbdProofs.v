(** Proofs for C41. *)
From Verif Require Import Base BaseLemmas Nbd NbdSpec.

Local Notation len := List.length (only parsing).

(** * The write callback *)
Lemma concat_empty_cons : forall c cs, String.concat "" (c :: cs) = (c ++ String.concat "" cs)%string.
Proof.
  intros c [|c' cs]; cbn [String.concat].
  - induction c; cbn; [reflexivity|now f_equal].
  - reflexivity.
Qed.

Lemma sapp_assoc : forall a b c : string, ((a ++ b) ++ c = a ++ (b ++ c))%string.
Proof. induction a; cbn; intros; [reflexivity|now f_equal]. Qed.
Lemma sapp_nil_r : forall a : string, (a ++ "" = a)%string.
Proof. induction a; cbn; [reflexivity|now f_equal]. Qed.
Lemma slen_app : forall a b : string, String.length (a ++ b) = String.length a + String.length b.
Proof. induction a; cbn; intros; [reflexivity|now f_equal]. Qed.

Lemma write_chunks_spec : forall cs size buf,
  (N.of_nat (String.length buf) <= size)%N ->
  (snd (write_chunks size buf cs) = true ->
     fst (write_chunks size buf cs) = (buf ++ String.concat "" cs)%string /\
     (N.of_nat (String.length (buf ++ String.concat "" cs)) <= size)%N) /\
  (snd (write_chunks size buf cs) = false ->
     (size < N.of_nat (String.length (buf ++ String.concat "" cs)))%N).
Proof.
  induction cs as [|c cs IH]; intros size buf Hb; cbn [write_chunks].
  - cbn. rewrite sapp_nil_r. split; intros H; [auto|discriminate].
  - destruct (N.ltb_spec (size - N.of_nat (String.length buf)) (N.of_nat (String.length c))) as [Hlt|Hge].
    + cbn [fst snd]. split; [discriminate|]. intros _. rewrite concat_empty_cons, !slen_app. lia.
    + specialize (IH size (buf ++ c)%string). rewrite concat_empty_cons, <- sapp_assoc.
      apply IH. rewrite slen_app. lia.
Qed.

Lemma wc_true : forall q c b, write_chunks (q_len q) "" (c_chunks c) = (b, true) ->
  b = body_of c /\ (N.of_nat (String.length (body_of c)) <= q_len q)%N.
Proof.
  intros q c b E. destruct (write_chunks_spec (c_chunks c) (q_len q) "") as [H _]; [cbn; lia|].
  rewrite E in H. cbn [fst snd] in H. destruct (H eq_refl) as [-> Hl]. cbn [String.append] in *. auto.
Qed.
Lemma wc_false : forall q c b, write_chunks (q_len q) "" (c_chunks c) = (b, false) ->
  (q_len q < N.of_nat (String.length (body_of c)))%N.
Proof.
  intros q c b E. destruct (write_chunks_spec (c_chunks c) (q_len q) "") as [_ H]; [cbn; lia|].
  rewrite E in H. cbn [fst snd] in H. exact (H eq_refl).
Qed.

(** * Histories *)
Lemma requests_app : forall a b, requests (a ++ b) = requests a ++ requests b.
Proof. intros. unfold requests. apply flat_map_app. Qed.
Lemma results_app : forall a b t, results (a ++ b) t = results a t ++ results b t.
Proof. intros. unfold results. apply flat_map_app. Qed.

Lemma request_ext : forall a b t q, request a t = Some q -> request (a ++ b) t = Some q.
Proof.
  unfold request. intros a b t q H. rewrite requests_app, nth_error_app1; [exact H|].
  apply nth_error_Some. congruence.
Qed.

Lemma gets_app : forall a b t, gets (a ++ b) t = gets a t + gets b t.
Proof. intros. unfold gets. now rewrite filter_app, app_length. Qed.
Lemma heads_app : forall a b t, heads (a ++ b) t = heads a t + heads b t.
Proof. intros. unfold heads. now rewrite filter_app, app_length. Qed.
Lemma gets_get : forall t q t', gets [get_range t q] t' = if Nat.eqb t t' then 1 else 0.
Proof. intros. unfold gets, get_range. cbn. now destruct (Nat.eqb t t'). Qed.
Lemma heads_get : forall t q t', heads [get_range t q] t' = 0.
Proof. reflexivity. Qed.

Lemma framed_app : forall a b, framed a -> framed b -> framed (a ++ b).
Proof. induction 1; cbn; intros; [assumption|apply framed_err; auto|apply framed_ok; auto]. Qed.

(** * Active transfers *)
Lemma find_xfer_some : forall t l x, find_xfer t l = Some x -> In x l /\ x_tick x = t.
Proof.
  induction l as [|y l IH]; cbn; intros x H; [discriminate|].
  destruct (Nat.eqb_spec (x_tick y) t).
  - injection H as <-. auto.
  - destruct (IH _ H). auto.
Qed.
Lemma find_xfer_none : forall t l x, find_xfer t l = None -> In x l -> x_tick x <> t.
Proof.
  induction l as [|y l IH]; cbn; intros x H Hi; [contradiction|].
  destruct (Nat.eqb_spec (x_tick y) t); [discriminate|]. destruct Hi as [<-|Hi]; auto.
Qed.
Lemma drop_In : forall t l x, In x (drop_xfer t l) <-> In x l /\ x_tick x <> t.
Proof.
  intros. unfold drop_xfer. rewrite filter_In. rewrite negb_true_iff, Nat.eqb_neq. reflexivity.
Qed.

(** the transfer x belongs to a request of the history; only failures were reported for it *)
Definition pending (es : list nev) (x : xfer) : Prop :=
  exists es1 es2, es = es1 ++ EClient (x_req x) :: es2 /\ x_tick x = len (requests es1) /\
    len (results es2 (x_tick x)) = x_errors x /\ Forall (fun c => failed (x_req x) c /\ c_http c <> 404%N) (results es2 (x_tick x)).

(** the reason of an error reply to the request q, whose results are rs *)
Definition eio_cause (q : nreq) (rs : list cres) : Prop :=
  exists c, last rs c = c /\ rs <> [] /\
    ((failed q c /\ c_http c = 404%N) \/ (c_ok c = true /\ c_http c <> 206%N) \/ (len rs = 6 /\ Forall (failed q) rs)).

Definition replied (es : list nev) (l : list nout) (t : nat) (q : nreq) (h : string) (e : N) : Prop :=
  exists es1 es2 c es3, es = es1 ++ EClient q :: es2 ++ EDone t c :: es3 /\ t = len (requests es1) /\ h = q_handle q /\
    q_type q = nbd_cmd_read /\
    len (results es2 t) <= 5 /\ Forall (fun c => failed q c /\ c_http c <> 404%N) (results es2 t) /\
    ((e = 0%N /\ c_ok c = true /\ c_http c = 206%N /\
        (complete q c /\ In (OBody t (body_of c)) l \/ short q c)) \/
     (e = nbd_eio /\ ((failed q c /\ c_http c = 404%N) \/ (c_ok c = true /\ ~ failed q c /\ c_http c <> 206%N) \/
                  (failed q c /\ len (results es2 t) = 5)))).

Record ninv (es : list nev) (s : nsrv) : Prop := {
  ni_next : n_stat s = Running -> n_next s = len (requests es);
  ni_act : n_stat s = Running -> forall x, In x (n_active s) ->
    pending es x /\ q_type (x_req x) = nbd_cmd_read /\ x_errors x <= 5 /\ gets (n_out s) (x_tick x) = S (x_errors x) /\
    heads (n_out s) (x_tick x) = 0 /\ x_tick x < n_next s;
  ni_nodup : NoDup (map x_tick (n_active s));
  ni_new : forall t, n_stat s = Running -> n_next s <= t -> gets (n_out s) t = 0 /\ heads (n_out s) t = 0;
  ni_get : forall t a b, In (OGet t a b) (n_out s) -> exists q, request es t = Some q /\ q_type q = nbd_cmd_read /\
    OGet t a b = get_range t q;
  ni_gets : forall t, gets (n_out s) t <= 6;
  ni_head : forall t h e, In (OHead t h e) (n_out s) -> exists q, replied es (n_out s) t q h e;
  ni_heads : forall t, heads (n_out s) t <= 1;
  ni_body : forall t d, In (OBody t d) (n_out s) -> exists q c, request es t = Some q /\ In c (results es t) /\ complete q c /\
    d = body_of c;
  ni_frame : n_stat s <> Aborted -> framed (filter on_socket (n_out s));
  ni_all : n_stat s = Running -> forall t q, request es t = Some q -> q_type q = nbd_cmd_read ->
    heads (n_out s) t = 1 \/ exists x, In x (n_active s) /\ x_tick x = t;
  ni_types : n_stat s = Running -> Forall (fun q => q_type q = nbd_cmd_read) (requests es);
  ni_abort : n_stat s = Aborted ->
    (exists q, In q (requests es) /\ q_type q <> nbd_cmd_read /\ q_type q <> nbd_cmd_disc) \/
    (exists t h q c l, n_out s = l ++ [OHead t h 0] /\ framed (filter on_socket l) /\
       request es t = Some q /\ q_type q = nbd_cmd_read /\ In c (results es t) /\ short q c);
  ni_stop : n_stat s = Stopped -> exists q, In q (requests es) /\ q_type q = nbd_cmd_disc
}.

Lemma pending_request : forall es x, pending es x -> request es (x_tick x) = Some (x_req x).
Proof.
  intros es x (es1 & es2 & -> & Ht & _). unfold request. rewrite requests_app. cbn [requests flat_map].
  rewrite Ht, nth_error_app2 by lia. now rewrite Nat.sub_diag.
Qed.

Lemma replied_ext : forall es l es' l' t q h e, replied es l t q h e -> replied (es ++ es') (l ++ l') t q h e.
Proof.
  intros es l es' l' t q h e (es1 & es2 & c & es3 & -> & H1 & H2 & H3 & H4 & H5 & H6).
  exists es1, es2, c, (es3 ++ es'). repeat split; auto.
  { rewrite <- app_assoc. cbn. now rewrite <- app_assoc. }
  destruct H6 as [(A & B & C & [[D E]|D])|H6]; [left|left|right; exact H6].
  - repeat split; auto. left. split; [exact D|]. apply in_app_iff. now left.
  - repeat split; auto.
Qed.

(** the invariant survives events which change nothing *)
Lemma ninv_skip : forall es s e, ninv es s -> n_stat s <> Running -> ninv (es ++ [e]) s.
Proof.
  intros es s e I Hs. destruct I. constructor; try (intros; congruence); auto.
  - intros t a b H. destruct (ni_get0 _ _ _ H) as (q & A & B). exists q. split; [now apply request_ext|exact B].
  - intros t h e' H. destruct (ni_head0 _ _ _ H) as (q & A). exists q.
    rewrite <- (app_nil_r (n_out s)). now apply replied_ext.
  - intros t d H. destruct (ni_body0 _ _ H) as (q & c & A & B & C). exists q, c. split; [now apply request_ext|]. split; [|exact C].
    rewrite results_app. apply in_app_iff. now left.
  - intros H. destruct (ni_abort0 H) as [(q & A & B)|(t & h & q & c & l & A & A' & B & B' & C & D)].
    + left. exists q. split; [|exact B]. rewrite requests_app. apply in_app_iff. now left.
    + right. exists t, h, q, c, l. repeat split; auto; try apply D. { now apply request_ext. }
      rewrite results_app. apply in_app_iff. now left.
  - intros H. destruct (ni_stop0 H) as (q & A & B). exists q. split; [|exact B]. rewrite requests_app. apply in_app_iff. now left.
Qed.

Lemma pending_other : forall es x e, pending es x ->
  (forall c, e <> EDone (x_tick x) c) -> pending (es ++ [e]) x.
Proof.
  intros es x e (es1 & es2 & -> & H1 & H2 & H3) He. exists es1, (es2 ++ [e]).
  rewrite <- app_assoc. cbn [app]. repeat split; auto; rewrite results_app.
  - destruct e as [q|t c]; cbn; [now rewrite app_nil_r|].
    destruct (Nat.eqb_spec t (x_tick x)) as [->|]; [exfalso; eapply He; reflexivity|]. cbn. now rewrite app_nil_r.
  - destruct e as [q|t c]; cbn; [now rewrite app_nil_r|].
    destruct (Nat.eqb_spec t (x_tick x)) as [->|]; [exfalso; eapply He; reflexivity|]. cbn. now rewrite app_nil_r.
Qed.

(** parts which only need monotonicity *)
Lemma get_mono : forall es e l, (forall t a b, In (OGet t a b) l -> exists q, request es t = Some q /\ q_type q = nbd_cmd_read /\
    OGet t a b = get_range t q) ->
  forall t a b, In (OGet t a b) l -> exists q, request (es ++ [e]) t = Some q /\ q_type q = nbd_cmd_read /\ OGet t a b = get_range t q.
Proof. intros es e l H t a b Hi. destruct (H _ _ _ Hi) as (q & A & B). exists q. split; [now apply request_ext|exact B]. Qed.
Lemma body_mono : forall es e l, (forall t d, In (OBody t d) l -> exists q c, request es t = Some q /\ In c (results es t) /\ complete q c /\
    d = body_of c) ->
  forall t d, In (OBody t d) l -> exists q c, request (es ++ [e]) t = Some q /\ In c (results (es ++ [e]) t) /\ complete q c /\
    d = body_of c.
Proof.
  intros es e l H t d Hi. destruct (H _ _ Hi) as (q & c & A & B & C). exists q, c.
  split; [now apply request_ext|]. split; [|exact C]. rewrite results_app. apply in_app_iff. now left.
Qed.

Lemma ninv_start : forall es s q, ninv es s -> n_stat s = Running -> ninv (es ++ [EClient q]) (start_new s q).
Proof.
  intros es s q I Hs. unfold start_new.
  assert (Hreq : requests (es ++ [EClient q]) = requests es ++ [q]) by (rewrite requests_app; reflexivity).
  assert (Hres : forall t, results (es ++ [EClient q]) t = results es t) by (intros; rewrite results_app; apply app_nil_r).
  pose proof (ni_next _ _ I Hs) as Hn.
  destruct (N.eqb_spec (q_type q) nbd_cmd_read) as [Hr|Hr].
  - constructor; cbn [n_next n_active n_stat n_out].
    + intros _. rewrite Hreq, app_length, Hn. cbn. lia.
    + intros _ x Hx. apply in_app_iff in Hx as [Hx|[<-|[]]].
      * destruct (ni_act _ _ I Hs x Hx) as (A & B & C & D & E & F).
        rewrite gets_app, heads_app, gets_get, heads_get.
        destruct (Nat.eqb_spec (n_next s) (x_tick x)); [lia|]. repeat split; auto; try lia.
        apply pending_other; [exact A|]. intros c. discriminate.
      * cbn [x_tick x_req x_errors]. rewrite gets_app, heads_app, gets_get, heads_get, Nat.eqb_refl.
        destruct (ni_new _ _ I (n_next s) Hs (le_n _)) as [-> ->]. repeat split; auto; try lia.
        exists es, []. cbn. repeat split; auto.
    + rewrite map_app. cbn. apply NoDup_Add with (a := n_next s) (l := map x_tick (n_active s)).
      { rewrite <- (app_nil_r (map x_tick (n_active s))) at 1. apply Add_app. }
      split; [apply (ni_nodup _ _ I)|]. intros Hi. apply in_map_iff in Hi as (x & Hx & Hx').
      destruct (ni_act _ _ I Hs x Hx') as (_ & _ & _ & _ & _ & F). lia.
    + intros t _ Ht. rewrite gets_app, heads_app, gets_get, heads_get.
      destruct (ni_new _ _ I t Hs) as [-> ->]; [lia|]. destruct (Nat.eqb_spec (n_next s) t); [lia|auto].
    + intros t a b Hi. apply in_app_iff in Hi as [Hi|[Hi|[]]]; [eapply get_mono; [apply (ni_get _ _ I)|exact Hi]|].
      exists q. unfold get_range in Hi. assert (t = n_next s) by congruence. subst t. split; [|now split; auto].
      unfold request. rewrite Hreq, nth_error_app2 by lia. rewrite Hn, Nat.sub_diag. reflexivity.
    + intros t. rewrite gets_app, gets_get. destruct (Nat.eqb_spec (n_next s) t) as [<-|].
      * destruct (ni_new _ _ I (n_next s) Hs (le_n _)) as [-> _]. lia.
      * rewrite Nat.add_0_r. apply (ni_gets _ _ I).
    + intros t h e Hi. apply in_app_iff in Hi as [Hi|[Hi|[]]]; [|discriminate].
      destruct (ni_head _ _ I _ _ _ Hi) as (q' & A). exists q'. now apply replied_ext.
    + intros t. rewrite heads_app, heads_get, Nat.add_0_r. apply (ni_heads _ _ I).
    + intros t d Hi. apply in_app_iff in Hi as [Hi|[Hi|[]]]; [|discriminate].
      eapply body_mono; [apply (ni_body _ _ I)|exact Hi].
    + intros _. rewrite filter_app. cbn. rewrite app_nil_r. apply (ni_frame _ _ I). congruence.
    + intros _ t q' Hq Hq'. rewrite heads_app, heads_get, Nat.add_0_r. unfold request in Hq. rewrite Hreq in Hq.
      destruct (Nat.lt_ge_cases t (len (requests es))) as [Hlt|Hge].
      * rewrite nth_error_app1 in Hq by lia. destruct (ni_all _ _ I Hs t q' Hq Hq') as [H|(x & Hx & Hx')]; [now left|].
        right. exists x. split; [|exact Hx']. apply in_app_iff. now left.
      * right. exists (mkXfer (n_next s) q 0). split; [apply in_app_iff; right; now left|]. cbn.
        assert (t - len (requests es) = 0). { apply Nat.lt_1_r. apply (proj1 (nth_error_Some [q] _)). rewrite nth_error_app2 in Hq by lia. congruence. } lia.
    + intros _. rewrite Hreq. apply Forall_app. split; [apply (ni_types _ _ I Hs)|repeat constructor; exact Hr].
    + discriminate.
    + discriminate.
  - assert (Hrest : forall st, st <> Running ->
      (st = Aborted -> q_type q <> nbd_cmd_disc) -> (st = Stopped -> q_type q = nbd_cmd_disc) ->
      ninv (es ++ [EClient q]) (mkNsrv (S (n_next s)) (n_active s) st (n_out s))).
    { intros st Hst Ha Hd. constructor; cbn [n_next n_active n_stat n_out]; try congruence.
      - apply (ni_nodup _ _ I).
      - eapply get_mono, (ni_get _ _ I).
      - apply (ni_gets _ _ I).
      - intros t h e Hi. destruct (ni_head _ _ I _ _ _ Hi) as (q' & A). exists q'.
        rewrite <- (app_nil_r (n_out s)). now apply replied_ext.
      - apply (ni_heads _ _ I).
      - eapply body_mono, (ni_body _ _ I).
      - intros _. apply (ni_frame _ _ I). congruence.
      - intros H. left. exists q. rewrite Hreq. split; [apply in_app_iff; right; now left|]. auto.
      - intros H. exists q. rewrite Hreq. split; [apply in_app_iff; right; now left|]. auto. }
    destruct (N.eqb_spec (q_type q) nbd_cmd_disc) as [Hd|Hd]; apply Hrest; intros; congruence.
Qed.

Lemma failed_dec : forall q c b, write_chunks (q_len q) "" (c_chunks c) = (b, true) -> c_ok c = true -> ~ failed q c.
Proof. intros q c b E Ho [H|H]; [congruence|]. apply wc_true in E as [_ E]. lia. Qed.

Lemma ninv_done : forall es s t c, ninv es s -> n_stat s = Running ->
  ninv (es ++ [EDone t c]) (match find_xfer t (n_active s) with Some x => on_done s x c | None => s end).
Proof.
  intros es s t c I Hs.
  assert (Hreq : requests (es ++ [EDone t c]) = requests es) by (rewrite requests_app; apply app_nil_r).
  pose proof (ni_next _ _ I Hs) as Hn.
  destruct (find_xfer t (n_active s)) as [x|] eqn:Ef.
  2:{ destruct I. constructor; auto; try congruence.
      - intros _ x Hx. destruct (ni_act0 Hs x Hx) as (A & B). split; [|exact B]. apply pending_other; [exact A|].
        intros c' E. injection E as E1 E2. eapply find_xfer_none; [exact Ef|exact Hx|now symmetry].
      - eapply get_mono, ni_get0.
      - intros t' h e Hi. destruct (ni_head0 _ _ _ Hi) as (q' & A). exists q'.
        rewrite <- (app_nil_r (n_out s)). now apply replied_ext.
      - eapply body_mono, ni_body0.
      - intros _ t' q'. unfold request. rewrite Hreq. apply ni_all0. exact Hs.
      - rewrite Hreq. exact ni_types0. }
  apply find_xfer_some in Ef as [Hx Hxt]. subst t. set (t := x_tick x) in *.
  destruct (ni_act _ _ I Hs x Hx) as (HP & Hty & Herr & Hgets & Hheads & Htn). fold t in Hgets, Hheads, Htn.
  pose proof (pending_request _ _ HP) as Hrq. fold t in Hrq. set (q := x_req x) in *.
  destruct HP as (es1 & es2 & Ees & Et & Elen & Efail). fold t q in Ees, Et, Elen, Efail.
  assert (Hrt : In c (results (es ++ [EDone t c]) t)).
  { rewrite results_app. apply in_app_iff. right. cbn. rewrite Nat.eqb_refl. now left. }
  assert (Hoth : forall y, In y (drop_xfer t (n_active s)) -> forall l, gets l (x_tick y) = 0 -> heads l (x_tick y) = 0 ->
     pending (es ++ [EDone t c]) y /\ q_type (x_req y) = nbd_cmd_read /\ x_errors y <= 5 /\
     gets (n_out s ++ l) (x_tick y) = S (x_errors y) /\ heads (n_out s ++ l) (x_tick y) = 0 /\ x_tick y < n_next s).
  { intros y Hy l Hl1 Hl2. apply drop_In in Hy as [Hy Hyt]. destruct (ni_act _ _ I Hs y Hy) as (A & B & C & D & E & F).
    rewrite gets_app, heads_app, D, E, Hl1, Hl2. repeat split; auto; try lia.
    apply pending_other; [exact A|]. intros c' E'. congruence. }
  assert (Hnd : NoDup (map x_tick (drop_xfer t (n_active s)))).
  { pose proof (ni_nodup _ _ I) as Hnd. clear -Hnd. induction (n_active s) as [|y l IH]; cbn; [constructor|].
    cbn in Hnd. inversion Hnd; subst. destruct (negb (Nat.eqb (x_tick y) t)); cbn; [|now apply IH].
    constructor; [|now apply IH]. intros Hi. apply H1. apply in_map_iff in Hi as (z & Hz & Hz'). apply filter_In in Hz' as [Hz' _].
    apply in_map_iff. eauto. }
  assert (Hxt' : forall y, In y (n_active s) -> x_tick y = t -> y = x).
  { pose proof (ni_nodup _ _ I) as Hnd'. clear -Hnd' Hx. unfold t. clear t. intros y Hy Ht.
    induction (n_active s) as [|z l IH]; [contradiction|]. cbn in Hnd'. inversion Hnd'; subst. destruct Hx as [<-|Hx], Hy as [<-|Hy]; auto.
    - exfalso. apply H1. rewrite <- Ht. now apply in_map.
    - exfalso. apply H1. rewrite Ht. now apply in_map. }
  assert (Hallq : forall l, heads l t = 1 -> forall t' q', request (es ++ [EDone t c]) t' = Some q' -> q_type q' = nbd_cmd_read ->
     heads (n_out s ++ l) t' <= 1 ->
     heads (n_out s ++ l) t' = 1 \/ exists y, In y (drop_xfer t (n_active s)) /\ x_tick y = t').
  { intros l Hl t' q' Hq Hq' Hle. unfold request in Hq. rewrite Hreq in Hq.
    destruct (Nat.eq_dec t' t) as [->|Hne].
    - left. rewrite heads_app. lia.
    - destruct (ni_all _ _ I Hs t' q' Hq Hq') as [H|(y & Hy & Hy')].
      + left. rewrite heads_app in *. lia.
      + right. exists y. split; [|exact Hy']. apply drop_In. split; [exact Hy|]. congruence. }
  unfold on_done. fold q t. destruct (write_chunks (q_len q) "" (c_chunks c)) as [buf acc] eqn:Ew.
  (* the three ways to finish *)
  assert (Hfin : forall err, (err = 0%N /\ c_ok c = true /\ acc = true) \/
      (err = nbd_eio /\ failed q c /\ (c_http c = 404%N \/ (x_errors x = 5 ))) ->
      ninv (es ++ [EDone t c]) (finish_read s x (c_http c) err buf)).
  { intros err Herrc. unfold finish_read. fold q t.
    set (err' := if (err =? 0)%N && negb (c_http c =? 206)%N then nbd_eio else err).
    assert (Hcase : (err' = 0%N /\ c_ok c = true /\ acc = true /\ c_http c = 206%N) \/
       (err' = nbd_eio /\ ((failed q c /\ c_http c = 404%N) \/ (c_ok c = true /\ ~ failed q c /\ c_http c <> 206%N) \/
         (failed q c /\ len (results es2 t) = 5)))).
    { unfold err'. destruct Herrc as [(-> & A & B)|(-> & A & B)].
      - destruct (N.eqb_spec (c_http c) 206); cbn [andb negb N.eqb]; [left; auto|right]. split; [reflexivity|].
        right; left. repeat split; auto. subst acc. eapply failed_dec; eauto.
      - right. split; [reflexivity|]. destruct B as [B|B]; [left; auto|right; right; split; auto; congruence]. }
    assert (Hrep : forall l, (err' = 0%N -> In (OBody t (body_of c)) l /\ complete q c \/ short q c) -> replied (es ++ [EDone t c]) l t q (q_handle q) err').
    { intros l Hl. exists es1, es2, c, []. rewrite Ees, <- app_assoc. cbn [app]. repeat split; auto; try lia.
      destruct Hcase as [(A & B & C & D)|H]; [left|right; exact H]. repeat split; auto.
      destruct (Hl A) as [[E1 E2]|E1]; [left; auto|right; auto]. }
    clearbody err'.
    assert (Hgen : forall l st, gets l t = 0 -> (forall t', t' <> t -> gets l t' = 0 /\ heads l t' = 0) -> heads l t = 1 ->
        (forall t' a b, ~ In (OGet t' a b) l) ->
        (forall t' h e, In (OHead t' h e) l -> t' = t /\ h = q_handle q /\ e = err') ->
        (forall t' d, In (OBody t' d) l -> t' = t /\ d = body_of c /\ complete q c) ->
        (st <> Aborted -> framed (filter on_socket l)) ->
        (err' = 0%N -> In (OBody t (body_of c)) l /\ complete q c \/ short q c) ->
        (st = Aborted -> l = [OHead t (q_handle q) 0] /\ short q c) ->
        st <> Stopped ->
        ninv (es ++ [EDone t c]) (mkNsrv (n_next s) (drop_xfer t (n_active s)) st (n_out s ++ l))).
    { intros l st Lg Lo Lh LG LH LB LF LC LA LS.
      assert (Hheads1 : forall t', heads (n_out s ++ l) t' <= 1).
      { intros t'. rewrite heads_app. destruct (Nat.eq_dec t' t) as [->|Hne]; [lia|]. destruct (Lo t' Hne) as [_ ->].
        rewrite Nat.add_0_r. apply (ni_heads _ _ I). }
      constructor; cbn [n_next n_active n_stat n_out].
      - intros _. now rewrite Hreq.
      - intros _ y Hy. apply Hoth; [exact Hy| |]; apply drop_In in Hy as [_ Hy]; now apply Lo.
      - exact Hnd.
      - intros t' _ Ht'. rewrite gets_app, heads_app. destruct (ni_new _ _ I t' Hs Ht') as [-> ->]. apply Lo. lia.
      - intros t' a b Hi. apply in_app_iff in Hi as [Hi|Hi]; [|now apply LG in Hi].
        eapply get_mono; [apply (ni_get _ _ I)|exact Hi].
      - intros t'. rewrite gets_app. destruct (Nat.eq_dec t' t) as [->|Hne]; [lia|]. destruct (Lo t' Hne) as [-> _].
        rewrite Nat.add_0_r. apply (ni_gets _ _ I).
      - intros t' h e Hi. apply in_app_iff in Hi as [Hi|Hi].
        + destruct (ni_head _ _ I _ _ _ Hi) as (q' & A). exists q'. now apply replied_ext.
        + apply LH in Hi as (-> & -> & ->). exists q. apply Hrep. intros E. destruct (LC E) as [[A B]|A]; [left|right; exact A].
          split; [apply in_app_iff; now right|exact B].
      - exact Hheads1.
      - intros t' d Hi. apply in_app_iff in Hi as [Hi|Hi]; [eapply body_mono; [apply (ni_body _ _ I)|exact Hi]|].
        apply LB in Hi as (-> & -> & Hc). exists q, c. split; [now apply request_ext|]. auto.
      - intros Hst. rewrite filter_app. apply framed_app; [|now apply LF]. apply (ni_frame _ _ I). congruence.
      - intros _ t' q' A B. apply Hallq with q'; auto.
      - intros _. rewrite Hreq. apply (ni_types _ _ I Hs).
      - intros Hst. right. destruct (LA Hst) as [-> Hsh]. exists t, (q_handle q), q, c, (n_out s).
        split; [reflexivity|]. split; [apply (ni_frame _ _ I); congruence|]. split; [now apply request_ext|].
        split; [exact Hty|]. split; [exact Hrt|exact Hsh].
      - congruence. }
    assert (Hone : gets [OHead t (q_handle q) err'] t = 0 /\ heads [OHead t (q_handle q) err'] t = 1 /\
      (forall t', t' <> t -> gets [OHead t (q_handle q) err'] t' = 0 /\ heads [OHead t (q_handle q) err'] t' = 0) /\
      gets [OHead t (q_handle q) err'; OBody t buf] t = 0 /\ heads [OHead t (q_handle q) err'; OBody t buf] t = 1 /\
      (forall t', t' <> t -> gets [OHead t (q_handle q) err'; OBody t buf] t' = 0 /\ heads [OHead t (q_handle q) err'; OBody t buf] t' = 0)).
    { unfold gets, heads. cbn. rewrite Nat.eqb_refl. repeat split; auto.
      - destruct (Nat.eqb_spec t t'); [congruence|reflexivity].
      - destruct (Nat.eqb_spec t t'); [congruence|reflexivity]. }
    destruct Hone as (O1 & O2 & O3 & O4 & O5 & O6).
    destruct Hcase as [(A & B & C & D)|(A & B)].
    - subst acc. pose proof (wc_true _ _ _ Ew) as [Eb El]. subst buf err'. cbn [N.eqb].
      destruct (N.eqb_spec (N.of_nat (String.length (body_of c))) (q_len q)) as [Eq|Nq].
      + apply Hgen; auto; try discriminate.
        * intros t' a b [H|[H|[]]]; discriminate.
        * intros t' h e [H|[H|[]]]; [|discriminate]. injection H as <- <- <-. auto.
        * intros t' d [H|[H|[]]]; [discriminate|]. injection H as <- <-. repeat split; auto.
        * intros _. cbn. apply framed_ok. constructor.
        * intros _. left. split; [right; now left|]. repeat split; auto.
      + assert (Hsh : short q c) by (repeat split; auto; lia).
        apply Hgen; auto; try discriminate.
        * intros t' a b [H|[]]; discriminate.
        * intros t' h e [H|[]]. injection H as <- <- <-. auto.
        * intros t' d [H|[]]; discriminate.
        * congruence.
    - subst err'. change (nbd_eio =? 0)%N with false. cbv iota.
      apply Hgen; auto; try discriminate.
      * intros t' a b [H|[]]; discriminate.
      * intros t' h e [H|[]]. injection H as <- <- <-. auto.
      * intros t' d [H|[]]; discriminate.
      * intros _. cbn. apply framed_err; [discriminate|constructor]. }
  destruct (c_ok c && acc) eqn:Eok.
  { apply andb_prop in Eok as [E1 E2]. apply Hfin. left. auto. }
  assert (Hf : failed q c).
  { apply andb_false_iff in Eok as [E|E]; [left; exact E|right]. subst acc. eapply wc_false; eauto. }
  destruct (N.eqb_spec (c_http c) 404) as [H4|H4].
  { apply Hfin. right. auto. }
  destruct (Nat.leb_spec 5 (x_errors x)) as [H5|H5].
  { apply Hfin. right. repeat split; auto. right. lia. }
  set (x' := mkXfer t q (S (x_errors x))).
  assert (Hx' : x_tick x' = t /\ x_req x' = q /\ x_errors x' = S (x_errors x)) by auto. destruct Hx' as (X1 & X2 & X3).
  clearbody x'.
  assert (Hg : forall t', gets (n_out s ++ [get_range t q]) t' = gets (n_out s) t' + if Nat.eqb t t' then 1 else 0)
    by (intros; now rewrite gets_app, gets_get).
  assert (Hh : forall t', heads (n_out s ++ [get_range t q]) t' = heads (n_out s) t')
    by (intros; rewrite heads_app, heads_get; lia).
  constructor; cbn [n_next n_active n_stat n_out].
  - intros _. now rewrite Hreq.
  - intros _ y Hy. apply in_app_iff in Hy as [Hy|[<-|[]]].
    + assert (x_tick y <> t) by (apply drop_In in Hy; tauto). apply Hoth; [exact Hy| |reflexivity].
      rewrite gets_get. destruct (Nat.eqb_spec t (x_tick y)); congruence.
    + rewrite X1, X2, X3, Hg, Hh, Nat.eqb_refl. repeat split; auto; try lia.
      exists es1, (es2 ++ [EDone t c]). rewrite X1, X2, X3, results_app, Ees, <- app_assoc. cbn [app].
      assert (results [EDone t c] t = [c]) as -> by (cbn; now rewrite Nat.eqb_refl).
      rewrite app_length, Elen. cbn. repeat split; auto; [lia|]. apply Forall_app. split; [exact Efail|]. constructor; auto.
  - rewrite map_app. cbn. rewrite X1. apply NoDup_Add with (a := t) (l := map x_tick (drop_xfer t (n_active s))).
    { rewrite <- (app_nil_r (map x_tick _)) at 1. apply Add_app. }
    split; [exact Hnd|]. intros Hi. apply in_map_iff in Hi as (y & Hy & Hy'). apply drop_In in Hy' as [_ Hy']. congruence.
  - intros t' _ Ht'. rewrite Hg, Hh. destruct (ni_new _ _ I t' Hs Ht') as [-> ->]. destruct (Nat.eqb_spec t t'); [lia|auto].
  - intros t' a b Hi. apply in_app_iff in Hi as [Hi|[Hi|[]]]; [eapply get_mono; [apply (ni_get _ _ I)|exact Hi]|].
    exists q. assert (t' = t) by (unfold get_range in Hi; congruence). subst t'. split; [now apply request_ext|]. now split.
  - intros t'. rewrite Hg. destruct (Nat.eqb_spec t t') as [<-|]; [lia|]. rewrite Nat.add_0_r. apply (ni_gets _ _ I).
  - intros t' h e Hi. apply in_app_iff in Hi as [Hi|[Hi|[]]]; [|discriminate].
    destruct (ni_head _ _ I _ _ _ Hi) as (q' & A). exists q'. now apply replied_ext.
  - intros t'. rewrite Hh. apply (ni_heads _ _ I).
  - intros t' d Hi. apply in_app_iff in Hi as [Hi|[Hi|[]]]; [|discriminate].
    eapply body_mono; [apply (ni_body _ _ I)|exact Hi].
  - intros _. rewrite filter_app. cbn. rewrite app_nil_r. apply (ni_frame _ _ I). congruence.
  - intros _ t' q' Hq Hq'. rewrite Hh. unfold request in Hq. rewrite Hreq in Hq.
    destruct (ni_all _ _ I Hs t' q' Hq Hq') as [H|(y & Hy & Hy')]; [now left|]. right.
    destruct (Nat.eq_dec t' t) as [->|Hne].
    + exists x'. split; [apply in_app_iff; right; now left|exact X1].
    + exists y. split; [|exact Hy']. apply in_app_iff. left. apply drop_In. split; [exact Hy|congruence].
  - intros _. rewrite Hreq. apply (ni_types _ _ I Hs).
  - discriminate.
  - discriminate.
Qed.

Lemma nrun_snoc : forall es e, nrun (es ++ [e]) = nstep (nrun es) e.
Proof. intros. unfold nrun. now rewrite fold_left_app. Qed.

Lemma ninv_run : forall es, ninv es (nrun es).
Proof.
  intros es. induction es as [|e es IH] using rev_ind.
  - constructor; try discriminate; try (intros; contradiction).
    + reflexivity.
    + constructor.
    + auto.
    + intros; cbn; lia.
    + intros; cbn; lia.
    + intros _. constructor.
    + intros _ t q H. destruct t; discriminate H.
    + constructor.
  - rewrite nrun_snoc. unfold nstep. destruct (n_stat (nrun es)) eqn:Es.
    + destruct e as [q|t c]; [now apply ninv_start|now apply ninv_done].
    + apply ninv_skip; [exact IH|congruence].
    + apply ninv_skip; [exact IH|congruence].
Qed.

(** * C41 *)
Lemma framed_body : forall l t h, framed l -> In (OHead t h 0) l -> exists d, In (OBody t d) l.
Proof.
  intros l t h F. induction F as [|t' h' e l He F IH|t' h' d l F IH]; intros Hi.
  - contradiction.
  - destruct Hi as [Hi|Hi]; [congruence|]. destruct (IH Hi) as (d & Hd). exists d. now right.
  - destruct Hi as [Hi|[Hi|Hi]]; [|discriminate|].
    + exists d. right. left. congruence.
    + destruct (IH Hi) as (d' & Hd). exists d'. right. now right.
Qed.

Lemma split_request : forall es1 es2 es1' es2' q q',
  es1 ++ EClient q :: es2 = es1' ++ EClient q' :: es2' -> len (requests es1) = len (requests es1') -> q = q' /\ es2 = es2'.
Proof.
  induction es1 as [|e es1 IH]; intros es2 es1' es2' q q' E L.
  - destruct es1' as [|e' es1']; cbn in E; [injection E as -> ->; auto|]. injection E as <- E. cbn in L. discriminate.
  - destruct es1' as [|e' es1']; cbn in E.
    + injection E as -> E. cbn in L. discriminate.
    + injection E as <- E. eapply IH; [exact E|]. unfold requests in *. destruct e; cbn in L; lia.
Qed.

Lemma c41_success_ok : forall es t h, In (OHead t h 0) (n_out (nrun es)) -> n_stat (nrun es) <> Aborted ->
  exists q c, request es t = Some q /\ h = q_handle q /\ In c (results es t) /\ complete q c /\
    In (OBody t (body_of c)) (n_out (nrun es)).
Proof.
  intros es t h Hi Hs. pose proof (ninv_run es) as J.
  destruct (ni_head _ _ J _ _ _ Hi) as (q & es1 & es2 & c & es3 & E & Ht & Hh & _).
  destruct (framed_body _ t h (ni_frame _ _ J Hs)) as (d & Hd); [apply filter_In; auto|]. apply filter_In in Hd as [Hd _].
  destruct (ni_body _ _ J _ _ Hd) as (q' & c' & A & B & C & D). subst d. exists q', c'. repeat split; auto; try apply C.
  assert (request es t = Some q); [|congruence].
  rewrite E, Ht. unfold request. rewrite requests_app, nth_error_app2 by lia. cbn. now rewrite Nat.sub_diag.
Qed.

Lemma c41_data_ok : forall es t d, In (OBody t d) (n_out (nrun es)) ->
  exists q c, request es t = Some q /\ In c (results es t) /\ complete q c /\ d = body_of c.
Proof. intros es t d H. exact (ni_body _ _ (ninv_run es) t d H). Qed.

Lemma c41_framed_ok : forall es, n_stat (nrun es) <> Aborted -> framed (filter on_socket (n_out (nrun es))).
Proof. intros es H. exact (ni_frame _ _ (ninv_run es) H). Qed.

Lemma c41_range_ok : forall es t first last, In (OGet t first last) (n_out (nrun es)) ->
  exists q, request es t = Some q /\ q_type q = nbd_cmd_read /\ first = q_from q /\
    ((0 < q_len q -> q_from q + q_len q <= 2 ^ 64 -> last = q_from q + q_len q - 1)%N).
Proof.
  intros es t a b H. destruct (ni_get _ _ (ninv_run es) _ _ _ H) as (q & A & B & C). exists q.
  unfold get_range in C.
  assert (Ea : a = q_from q) by congruence.
  assert (Eb : b = ((q_from q + q_len q + 2 ^ 64 - 1) mod 2 ^ 64)%N) by congruence.
  repeat split; auto. intros H1 H2. rewrite Eb.
  clear - H1 H2. set (M := (2 ^ 64)%N) in *. assert (0 < M)%N by reflexivity. clearbody M.
  replace (q_from q + q_len q + M - 1)%N with (q_from q + q_len q - 1 + 1 * M)%N by lia.
  rewrite N.mod_add by lia. apply N.mod_small. lia.
Qed.

Lemma c41_bounded_ok : forall es t, gets (n_out (nrun es)) t <= 6 /\ heads (n_out (nrun es)) t <= 1.
Proof. intros es t. split; [apply (ni_gets _ _ (ninv_run es))|apply (ni_heads _ _ (ninv_run es))]. Qed.

Lemma c41_error_ok : forall es t h e, In (OHead t h e) (n_out (nrun es)) -> e <> 0%N ->
  exists q, request es t = Some q /\ h = q_handle q /\ e = 5%N /\
    ((exists c, In c (results es t) /\ (c_http c = 404%N /\ failed q c \/ c_http c <> 206%N /\ c_ok c = true)) \/
     6 <= List.length (results es t)).
Proof.
  intros es t h e Hi He. destruct (ni_head _ _ (ninv_run es) _ _ _ Hi) as (q & es1 & es2 & c & es3 & E & Ht & Hh & _ & _ & _ & H).
  exists q. assert (Hc : In c (results es t)).
  { rewrite E, results_app. apply in_app_iff. right. cbn. rewrite flat_map_app. apply in_app_iff. right. cbn. rewrite Nat.eqb_refl. now left. }
  split; [|split; [exact Hh|]].
  { rewrite E, Ht. unfold request. rewrite requests_app, nth_error_app2 by lia. cbn. now rewrite Nat.sub_diag. }
  destruct H as [(H & _)|(-> & H)]; [congruence|]. split; [reflexivity|].
  destruct H as [(A & B)|[(A & B & C)|(A & B)]]; [left; exists c; auto|left; exists c; auto|right].
  rewrite E, results_app, app_length. cbn. rewrite flat_map_app, app_length. unfold results in B. rewrite B. cbn.
  rewrite Nat.eqb_refl. cbn. lia.
Qed.

Lemma c41_answered_ok : forall es1 q es2, let es := es1 ++ EClient q :: es2 in let t := List.length (requests es1) in
  n_stat (nrun es) = Running -> q_type q = nbd_cmd_read ->
  (6 <= List.length (results es2 t) \/ exists c, In c (results es2 t) /\ (~ failed q c \/ c_http c = 404%N)) ->
  heads (n_out (nrun es)) t = 1.
Proof.
  intros es1 q es2 es t Hs Hq Hr. pose proof (ninv_run es) as J.
  assert (Hrq : request es t = Some q).
  { unfold es, t, request. rewrite requests_app, nth_error_app2 by lia. cbn. now rewrite Nat.sub_diag. }
  destruct (ni_all _ _ J Hs t q Hrq Hq) as [H|(x & Hx & Hxt)]; [exact H|exfalso].
  destruct (ni_act _ _ J Hs x Hx) as (HP & _ & He & _). destruct HP as (es1' & es2' & E & Et & El & Ef).
  unfold es in E. destruct (split_request _ _ _ _ _ _ E) as [Eq Ees]; [rewrite <- Et, Hxt; reflexivity|].
  rewrite Hxt in El, Ef. subst es2' q. destruct Hr as [Hr|(c & Hc & Hr)]; [lia|].
  rewrite Forall_forall in Ef. destruct (Ef c Hc) as [A B]. destruct Hr; auto.
Qed.

Lemma c41_abort_ok : forall es, n_stat (nrun es) = Aborted ->
  (exists q, In q (requests es) /\ q_type q <> nbd_cmd_read /\ q_type q <> nbd_cmd_disc) \/
  (exists t q c, request es t = Some q /\ In c (results es t) /\ short q c).
Proof.
  intros es H. destruct (ni_abort _ _ (ninv_run es) H) as [H'|(t & h & q & c & l & _ & _ & A & _ & B & C)]; [now left|].
  right. exists t, q, c. auto.
Qed.

(** a short response is not retried: the server announces success, sends no data and aborts *)
Lemma c41_short_refuted : exists es t q c, request es t = Some q /\ q_type q = nbd_cmd_read /\ results es t = [c] /\ short q c /\
  n_stat (nrun es) = Aborted /\ gets (n_out (nrun es)) t = 1 /\
  filter on_socket (n_out (nrun es)) = [OHead t (q_handle q) 0].
Proof.
  exists [EClient (mkNreq 0 "handle01" 4096 4); EDone 0 (mkCres true 206 (Some (4096, 4099)%N) ["ab"%string])],
    0, (mkNreq 0 "handle01" 4096 4), (mkCres true 206 (Some (4096, 4099)%N) ["ab"%string]).
  repeat split; reflexivity.
Qed.

(** a response which, according to its own Content-Range header, has the bytes of another range is accepted *)
Lemma c41_wrong_range_refuted : exists es t q c first last, request es t = Some q /\ q_type q = nbd_cmd_read /\
  results es t = [c] /\ c_range c = Some (first, last) /\ first <> q_from q /\
  In (OHead t (q_handle q) 0) (n_out (nrun es)) /\ In (OBody t (body_of c)) (n_out (nrun es)).
Proof.
  exists [EClient (mkNreq 0 "handle01" 4096 4); EDone 0 (mkCres true 206 (Some (0, 3)%N) ["hsqs"%string])],
    0, (mkNreq 0 "handle01" 4096 4), (mkCres true 206 (Some (0, 3)%N) ["hsqs"%string]), 0%N, 3%N.
  repeat split; try reflexivity; try discriminate; cbn; auto.
Qed.
