From Verif Require Import Base BaseLemmas Handlers HttpProofs Cli CliSpec.
Open Scope list_scope.

Lemma flag_given : forall o n, flag o n = true <-> given o n.
Proof.
  intros o n. unfold flag, given. rewrite existsb_exists. split.
  - intros ([k v] & Hin & He). apply String.eqb_eq in He. cbn in He. subst k. eauto.
  - intros (v & Hin). exists (n, v). split; [exact Hin|]. apply String.eqb_refl.
Qed.
Lemma flag_says : forall o n, says o n (flag o n).
Proof. intros o n. apply flag_given. Qed.
Lemma says_flag : forall o n b, says o n b -> b = flag o n.
Proof.
  intros o n b [H1 H2]. destruct (flag o n) eqn:E; destruct b; try reflexivity.
  - apply flag_given in E. now specialize (H2 E).
  - assert (G : given o n) by now apply H1. apply flag_given in G. congruence.
Qed.

Lemma existsb_in : forall ns n, existsb (String.eqb n) ns = true <-> In n ns.
Proof.
  intros ns n. rewrite existsb_exists. split.
  - intros (x & Hx & He). apply String.eqb_eq in He. now subst x.
  - intros H. exists n. split; [exact H|apply String.eqb_refl].
Qed.

Lemma value_spec : forall o ns, match value o ns with Some v => last_value o ns v | None => not_given o ns end.
Proof.
  intros o ns. unfold value.
  set (p := fun x : string * string => existsb (String.eqb (fst x)) ns).
  induction o as [|[n v] o IH] using rev_ind.
  - cbn. intros n v [].
  - rewrite filter_app, rev_app_distr. cbn [filter]. destruct (p (n, v)) eqn:Ep.
    + cbn [rev app]. exists o, n, []. split; [reflexivity|]. split; [now apply existsb_in|]. intros n' v' [].
    + cbn [rev app]. assert (Hn : ~ In n ns) by (intros H; apply existsb_in in H; unfold p in Ep; cbn in Ep; congruence).
      destruct (rev (filter p o)) as [|x l].
      * intros n' v' Hin. apply in_app_iff in Hin as [Hin|[Hin|[]]]; [now apply (IH n' v')|]. injection Hin as <- <-. exact Hn.
      * destruct IH as (b & m & a & -> & Hm & Ha). exists b, m, (a ++ [(n, v)]). split; [now rewrite <- app_assoc|]. split; [exact Hm|].
        intros n' v' Hin. apply in_app_iff in Hin as [Hin|[Hin|[]]]; [now apply (Ha n' v')|]. injection Hin as <- <-. exact Hn.
Qed.

Lemma last_value_unique : forall o ns v w, last_value o ns v -> last_value o ns w -> v = w.
Proof.
  intros o. induction o as [|[n x] o IH] using rev_ind; intros ns v w (b & m & a & E & Hm & Ha) (b' & m' & a' & E' & Hm' & Ha').
  - destruct b; discriminate E.
  - destruct a as [|y a _] using rev_ind; destruct a' as [|y' a' _] using rev_ind.
    + apply app_inj_tail in E as [_ E]. apply app_inj_tail in E' as [_ E']. congruence.
    + apply app_inj_tail in E as [_ E]. rewrite app_comm_cons, app_assoc in E'. apply app_inj_tail in E' as [_ E'].
      exfalso. apply (Ha' n x); [rewrite E'; apply in_app_iff; right; now left|]. injection E as -> _. exact Hm.
    + apply app_inj_tail in E' as [_ E']. rewrite app_comm_cons, app_assoc in E. apply app_inj_tail in E as [_ E].
      exfalso. apply (Ha n x); [rewrite E; apply in_app_iff; right; now left|]. injection E' as -> _. exact Hm'.
    + rewrite app_comm_cons, app_assoc in E, E'. apply app_inj_tail in E as [E _]. apply app_inj_tail in E' as [E' _].
      apply (IH ns v w).
      * exists b, m, a. split; [exact E|]. split; [exact Hm|]. intros n0 v0 H. apply (Ha n0 v0). apply in_app_iff. now left.
      * exists b', m', a'. split; [exact E'|]. split; [exact Hm'|]. intros n0 v0 H. apply (Ha' n0 v0). apply in_app_iff. now left.
Qed.
Lemma last_value_given : forall o ns v, last_value o ns v -> ~ not_given o ns.
Proof. intros o ns v (b & m & a & -> & Hm & _) H. apply (H m v); [apply in_elt|exact Hm]. Qed.

Lemma value_some : forall o ns v, value o ns = Some v <-> last_value o ns v.
Proof.
  intros o ns v. pose proof (value_spec o ns) as H. destruct (value o ns) as [w|].
  - split; [intros [= <-]; exact H|]. intros H'. f_equal. exact (last_value_unique _ _ _ _ H H').
  - split; [discriminate|]. intros H'. exfalso. exact (last_value_given _ _ _ H' H).
Qed.
Lemma value_none : forall o ns, value o ns = None <-> not_given o ns.
Proof.
  intros o ns. pose proof (value_spec o ns) as H. destruct (value o ns) as [w|].
  - split; [discriminate|]. intros H'. exfalso. exact (last_value_given _ _ _ H H').
  - split; auto.
Qed.

Lemma values_spec : forall o n, all_values n o (values o n).
Proof.
  induction o as [|[k v] o IH]; intros n; unfold values; cbn [filter map fst]; [constructor|].
  destruct (String.eqb_spec k n) as [->|Hn]; [apply all_this; apply IH|apply all_other; [exact Hn|apply IH]].
Qed.
Lemma all_values_fun : forall n o l, all_values n o l -> l = values o n.
Proof.
  intros n o l H. induction H as [|v o l H IH|k v o l Hk H IH]; [reflexivity| |]; unfold values; cbn [filter map fst].
  - rewrite String.eqb_refl. cbn [map snd]. now rewrite IH.
  - destruct (String.eqb_spec k n); [contradiction|exact IH].
Qed.

Lemma info_format_spec : forall f o fmt, info_format f o = Some fmt <-> format_of (info_formats f) o fmt.
Proof.
  intros f o fmt. unfold info_format, format_of. split.
  - destruct (value o _) as [x|] eqn:E; intros H.
    + destruct (existsb (String.eqb x) _) eqn:Ex; [|discriminate]. injection H as <-. right. split; [now apply value_some|].
      apply existsb_in in Ex. unfold info_formats. apply in_app_iff in Ex. apply in_app_iff. tauto.
    + injection H as <-. left. split; [now apply value_none|reflexivity].
  - intros [[H ->]|[H Hin]].
    + apply value_none in H. now rewrite H.
    + apply value_some in H. rewrite H. replace (existsb (String.eqb fmt) _) with true; [reflexivity|]. symmetry. apply existsb_in.
      unfold info_formats in Hin. apply in_app_iff in Hin. apply in_app_iff. tauto.
Qed.
Lemma status_format_spec : forall f o fmt, status_format f o = Some fmt <-> format_of (status_formats f) o fmt.
Proof.
  intros f o fmt. unfold status_format, format_of. split.
  - destruct (value o _) as [x|] eqn:E; intros H.
    + destruct (existsb (String.eqb x) _) eqn:Ex; [|discriminate]. injection H as <-. right. split; [now apply value_some|].
      apply existsb_in in Ex. unfold status_formats. apply in_app_iff in Ex. apply in_app_iff. tauto.
    + injection H as <-. left. split; [now apply value_none|reflexivity].
  - intros [[H ->]|[H Hin]].
    + apply value_none in H. now rewrite H.
    + apply value_some in H. rewrite H. replace (existsb (String.eqb fmt) _) with true; [reflexivity|]. symmetry. apply existsb_in.
      unfold status_formats in Hin. apply in_app_iff in Hin. apply in_app_iff. tauto.
Qed.

Lemma mark_state_spec : forall sub st, mark_state sub = Some st <-> In (sub, st) marks.
Proof.
  intros sub st. unfold mark_state, marks. cbn [In]. split.
  - destruct (String.eqb_spec sub "mark-good") as [->|]; [intros [= <-]; now left|].
    destruct (String.eqb_spec sub "mark-bad") as [->|]; [intros [= <-]; right; now left|].
    destruct (String.eqb_spec sub "mark-active") as [->|]; [intros [= <-]; do 2 right; now left|discriminate].
  - intros [H|[H|[H|[]]]]; injection H as <- <-; reflexivity.
Qed.

Lemma find_slot : forall l slot r, (exists before after, l = before ++ (slot, r) :: after /\ forall r', ~ In (slot, r') before) <->
  exists n, find (fun s : string * bool => String.eqb (fst s) slot) l = Some (n, r).
Proof.
  induction l as [|[k b] l IH]; intros slot r.
  - split; [intros ([|x bf] & af & E & _); discriminate E|intros (n & H); discriminate H].
  - cbn [find fst]. destruct (String.eqb_spec k slot) as [->|Hk].
    + split.
      * intros (bf & af & E & Hb). destruct bf as [|x bf]; [injection E as <- _; eauto|].
        injection E as <- _. exfalso. apply (Hb b). now left.
      * intros (n & H). injection H as <- <-. exists [], l. split; [reflexivity|]. intros r' [].
    + rewrite <- IH. split; intros (bf & af & E & Hb).
      * destruct bf as [|x bf]; [injection E as -> _; contradiction|]. injection E as <- ->. exists bf, af. split; [reflexivity|].
        intros r' H. apply (Hb r'). now right.
      * exists ((k, b) :: bf), af. split; [now rewrite E|]. intros r' [H|H]; [injection H as -> _; contradiction|now apply (Hb r')].
Qed.

Lemma mode_name : forall f name c, In (name, c) (commands f) -> mode_of f c = configuration_for f name.
Proof.
  intros [fc fs ft fj] name c HC. unfold commands in HC. cbn [ft_create ft_service] in HC.
  destruct fc, fs; cbn [app In] in HC; repeat (destruct HC as [HC|HC]; [injection HC as <- <-; reflexivity|]); destruct HC.
Qed.
Lemma reaches_start : forall f W e o name c args, reaches f e o name c -> rauc f W e o (name :: args) = start f W e o c args [].
Proof.
  intros f W e o name c args (HC & HO & HH & HM). rewrite <- (mode_name f name c HC) in HM. unfold rauc.
  assert (F : exists n, find (fun x : string * command => String.eqb (fst x) name) (commands f) = Some (n, c)).
  { clear - HC. destruct f as [fc fs ft fj]. unfold commands in *. cbn [ft_create ft_service] in *.
    destruct fc, fs; cbn [app In] in HC;
      repeat (destruct HC as [HC|HC]; [injection HC as <- <-; eexists; reflexivity|]); destruct HC. }
  destruct F as [n ->].
  assert (A : forallb (fun x => existsb (String.eqb (fst x)) (main_options ++ options_of f c)) o = true).
  { apply forallb_forall. intros [k v] Hin. apply existsb_in. exact (HO k v Hin). }
  rewrite A, HM. cbn [negb]. destruct (flag o "help") eqn:E; [|reflexivity]. exfalso. apply HH. now apply flag_given.
Qed.

Lemma try1 : forall W e a, outcome [a] e (try W a done []).
Proof.
  intros W e a. unfold try, done. cbn [app]. destruct (W [] a); [left; split; reflexivity|].
  right. exists [], a, []. repeat split; [discriminate|now left].
Qed.
Lemma try2 : forall W e a b, outcome [a; b] e (try W a (try W b done) []).
Proof.
  intros W e a b. unfold try, done. cbn [app]. destruct (W [] a) eqn:E1.
  - destruct (W [(a, true)] b); [left; split; reflexivity|]. right. exists [a], b, []. repeat split; [discriminate|now left].
  - right. exists [], a, [b]. repeat split; [discriminate|now left].
Qed.

Lemma start_cases : forall f W e o c args, c <> CHelp ->
  (exists ops, asks f e o c args ops /\ outcome ops e (start f W e o c args [])) \/
  ((forall ops, ~ asks f e o c args ops) /\ usage (start f W e o c args [])).
Proof.
  intros f W e o c args Hc.
  assert (US : usage (1, [])) by (split; [reflexivity|now left]).
  destruct c; [contradiction| | | | | | | | | | | | | ]; cbn [start].
  - (* install *) unfold install_start.
    destruct args as [|b [|x r]]; try (right; split; [intros ops H; inversion H|exact US]).
    unfold guard. destruct (ft_service f && flag o "keyring") eqn:Eg; cbn [negb].
    + right. split; [|exact US]. intros ops H. inversion H as [b0 p Hk Hr| | | | | | | | | | | | | | |]. apply Hk.
      apply andb_true_iff in Eg as [Eg1 Eg2]. split; [exact Eg1|now apply flag_given].
    + destruct (e_resolve e b) as [p|] eqn:Er.
      * left. exists [OInstall p]. split.
        -- apply asks_install; [|exact Er]. intros [H1 H2]. apply flag_given in H2. rewrite H1, H2 in Eg. discriminate.
        -- cbn [app]. destruct (Nat.eqb_spec (e_install_code e) 0) as [E0|E0].
           ++ left. split; [reflexivity|exact E0].
           ++ right. exists [], (OInstall p), []. repeat split; [exact E0|right; split; [reflexivity|now exists p]].
      * right. split; [|exact US]. intros ops H. inversion H. congruence.
  - (* bundle *) unfold bundle_start.
    destruct args as [|a [|b [|x r]]]; try (right; split; [intros ops H; inversion H|exact US]).
    unfold guard. destruct (flag o "cert" && flag o "key") eqn:Eg.
    2: { right. split; [|exact US]. intros ops H. inversion H as [|c0 o0 G1 G2 G3 G4| | | | | | | | | | | | | |]. apply flag_given in G1, G2. rewrite G1, G2 in Eg. discriminate. }
    apply andb_true_iff in Eg as [G1 G2]. apply flag_given in G1, G2.
    destruct (e_is_dir e (resolve_path (e_cwd e) a)) eqn:Ed; [|right; split; [intros ops H; inversion H; congruence|exact US]].
    destruct (outside_check (e_cwd e) a b) eqn:Eo; [|right; split; [intros ops H; inversion H; congruence|exact US]].
    left. exists [OCreate b a]. split; [now apply asks_bundle|apply try1].
  - (* resign *) unfold resign_start.
    destruct args as [|a [|b [|x r]]]; try (right; split; [intros ops H; inversion H|exact US]).
    unfold guard. destruct (flag o "cert" && flag o "key") eqn:Eg.
    2: { right. split; [|exact US]. intros ops H. inversion H as [| |i out nv nt ap G1 G2| | | | | | | | | | | | |]. apply flag_given in G1, G2. rewrite G1, G2 in Eg. discriminate. }
    apply andb_true_iff in Eg as [G1 G2]. apply flag_given in G1, G2.
    left. eexists. split; [apply asks_resign; [exact G1|exact G2|apply flag_says..]|apply try2].
  - (* convert *) unfold convert_start. unfold guard. destruct (flag o "cert" && flag o "key") eqn:Eg.
    2: { right. split; [|exact US]. intros ops H. inversion H as [| | | | | |i out nv te ig G1 G2| | | | | | | | |]. apply flag_given in G1, G2. rewrite G1, G2 in Eg. discriminate. }
    apply andb_true_iff in Eg as [G1 G2]. apply flag_given in G1, G2.
    destruct args as [|a [|b [|x r]]]; try (right; split; [intros ops H; inversion H|exact US]).
    left. eexists. split; [apply asks_convert; [exact G1|exact G2|apply flag_says|apply flag_says|apply values_spec]|apply try2].
  - (* encrypt *) unfold encrypt_start, guard. destruct (flag o "to") eqn:Eg.
    2: { right. split; [|exact US]. intros ops H. inversion H as [| | | | | | |i out G1| | | | | | | |]. apply flag_given in G1. congruence. }
    apply flag_given in Eg.
    destruct args as [|a [|b [|x r]]]; try (right; split; [intros ops H; inversion H|exact US]).
    left. eexists. split; [now apply asks_encrypt|apply try2].
  - (* replace *) unfold replace_start.
    destruct args as [|a [|b [|d [|x r]]]]; try (right; split; [intros ops H; inversion H|exact US]).
    left. eexists. split; [apply asks_replace; apply flag_says|apply try2].
  - (* extract signature *) unfold extract_signature_start.
    destruct args as [|a [|b [|x r]]]; try (right; split; [intros ops H; inversion H|exact US]).
    left. eexists. split; [apply asks_extract_sig; apply flag_says|apply try2].
  - (* extract *) unfold extract_start.
    destruct args as [|a [|b [|x r]]]; try (right; split; [intros ops H; inversion H|exact US]).
    left. eexists. split; [apply asks_extract; apply flag_says|apply try2].
  - (* info *) unfold info_start.
    destruct args as [|b [|x r]]; try (right; split; [intros ops H; inversion H|exact US]).
    destruct (info_format f o) as [fmt|] eqn:Ef.
    2: { right. split; [|exact US]. intros ops H. inversion H as [| | | | | | | |b0 p nv nt fm R S1 S2 FM|b0 p nv nt fm R S1 S2 FM| | | | | |]; apply info_format_spec in FM; congruence. }
    apply info_format_spec in Ef.
    destruct (e_resolve e b) as [p|] eqn:Er; [|right; split; [intros ops H; inversion H; congruence|exact US]].
    left. destruct (e_has_manifest e) eqn:Em.
    + eexists. split; [apply asks_info; [exact Er|apply flag_says|apply flag_says|exact Ef|exact Em]|].
      unfold try. cbn [app]. destruct (W [] _); [left; split; reflexivity|].
      right. eexists [], _, _. repeat split; [discriminate|now left].
    + eexists. split; [apply asks_info_load; [exact Er|apply flag_says|apply flag_says|exact Ef|exact Em]|].
      unfold try. cbn [app]. destruct (W [] _) eqn:E1.
      * destruct (W _ OLoadManifest); [left; split; reflexivity|]. right. eexists [_], _, _. repeat split; [discriminate|now left].
      * right. eexists [], _, _. repeat split; [discriminate|now left].
  - (* status *) unfold status_start.
    assert (U2 : usage (try W OGetStatus fail_usage [])).
    { unfold try, fail_usage. cbn [app]. destruct (W [] OGetStatus); (split; [reflexivity|right; eexists; reflexivity]). }
    destruct args as [|sub rest].
    + destruct (status_format f o) as [fmt|] eqn:Ef.
      * apply status_format_spec in Ef. left. eexists. split; [apply asks_status; exact Ef|].
        unfold try. cbn [app]. destruct (W [] OGetStatus); [left; split; reflexivity|]. right. eexists [], _, _. repeat split; [discriminate|now left].
      * right. split; [|exact U2]. intros ops H. inversion H as [| | | | | | | | | |fmt FM| | | | |]. apply status_format_spec in FM. congruence.
    + destruct rest as [|s [|x r]].
      * destruct (mark_state sub) as [st|] eqn:Em.
        -- apply mark_state_spec in Em. left. eexists. split; [apply asks_mark_booted; exact Em|apply try2].
        -- right. split; [|exact U2]. intros ops H. inversion H as [| | | | | | | | | | |su st MK| | | |]. apply mark_state_spec in MK. congruence.
      * destruct (mark_state sub) as [st|] eqn:Em.
        -- apply mark_state_spec in Em. left. eexists. split; [apply asks_mark; exact Em|apply try2].
        -- right. split; [|exact U2]. intros ops H. inversion H as [| | | | | | | | | | | |su st sl MK| | |]. apply mark_state_spec in MK. congruence.
      * right. split; [intros ops H; inversion H|exact U2].
  - (* write-slot *) unfold write_slot_start.
    destruct args as [|slot [|img [|x r]]]; try (right; split; [intros ops H; inversion H|exact US]).
    unfold guard. destruct (e_readable e img) eqn:E1; [|right; split; [intros ops H; inversion H; congruence|exact US]].
    set (ns := ["image-type"%string; "image-type-compat"%string]).
    destruct (match value o ns with Some t => Some t | None => derive_image_type img end) as [ty|] eqn:Et.
    2: { right. split; [|exact US]. intros ops H. inversion H as [| | | | | | | | | | | | |sl im ty R [L|[NG D]]| |].
         - apply value_some in L. fold ns in L. rewrite L in Et. discriminate.
         - apply value_none in NG. fold ns in NG. rewrite NG in Et. congruence. }
    assert (TY : last_value o ns ty \/ not_given o ns /\ derive_image_type img = Some ty).
    { destruct (value o ns) as [t|] eqn:Ev; [left; apply value_some; congruence|right; split; [now apply value_none|exact Et]]. }
    assert (TU : forall t, (last_value o ns t \/ not_given o ns /\ derive_image_type img = Some t) -> t = ty).
    { intros t [L|[NG D]].
      - apply value_some in L. rewrite L in Et. congruence.
      - apply value_none in NG. rewrite NG in Et. congruence. }
    destruct (is_image_type_supported ty) eqn:E2.
    2: { right. split; [|exact US]. intros ops H. inversion H as [| | | | | | | | | | | | |sl im t R T SU| |]. apply TU in T. congruence. }
    destruct (find (fun s : string * bool => String.eqb (fst s) slot) (e_slots e)) as [[n ro]|] eqn:E3.
    2: { right. split; [|exact US]. intros ops H. inversion H as [| | | | | | | | | | | | |sl im t R T SU SL| |]. apply find_slot in SL as (m & SL). congruence. }
    destruct ro; cbn [negb].
    { right. split; [|exact US]. intros ops H. inversion H as [| | | | | | | | | | | | |sl im t R T SU SL| |]. apply find_slot in SL as (m & SL). congruence. }
    destruct (e_handler e slot ty) eqn:E4.
    2: { right. split; [|exact US]. intros ops H. inversion H as [| | | | | | | | | | | | |sl im t R T SU SL HA| |]. apply TU in T. congruence. }
    left. eexists. split; [apply asks_write; [exact E1|exact TY|exact E2|apply find_slot; now exists n|exact E4]|apply try1].
  - (* service *) left. eexists. split; [apply asks_service|apply try1].
  - (* mount *) unfold mount_start.
    destruct args as [|b [|x r]]; try (right; split; [intros ops H; inversion H|exact US]).
    destruct (e_resolve e b) as [p|] eqn:Er; [|right; split; [intros ops H; inversion H; congruence|exact US]].
    left. eexists. split; [apply asks_mount; exact Er|apply try2].
Qed.

Lemma c71_run_ok : forall f W e o name c args, reaches f e o name c -> c <> CHelp ->
  let r := rauc f W e o (name :: args) in
  (exists ops, asks f e o c args ops /\ outcome ops e r) \/ ((forall ops, ~ asks f e o c args ops) /\ usage r).
Proof. intros f W e o name c args HR Hc r. subst r. rewrite (reaches_start f W e o name c args HR). now apply start_cases. Qed.

Lemma c71_one_meaning_ok : forall f e o c args a b, asks f e o c args a -> asks f e o c args b -> a = b.
Proof.
  assert (SU : forall o n a b, says o n a -> says o n b -> a = b) by (intros o n a b H1 H2; apply says_flag in H1, H2; congruence).
  intros f e o c args a b H1 H2. inversion H1; subst; inversion H2; subst;
    repeat match goal with
    | A : says ?o ?n ?x, B : says ?o ?n ?y |- _ => pose proof (SU _ _ _ _ A B); subst y; clear B
    | A : all_values _ _ _, B : all_values _ _ _ |- _ => apply all_values_fun in A; apply all_values_fun in B; subst
    | A : format_of (info_formats _) _ _, B : format_of (info_formats _) _ _ |- _ => apply info_format_spec in A; apply info_format_spec in B
    | A : format_of (status_formats _) _ _, B : format_of (status_formats _) _ _ |- _ => apply status_format_spec in A; apply status_format_spec in B
    | A : In _ marks, B : In _ marks |- _ => apply mark_state_spec in A; apply mark_state_spec in B
    end; try congruence.
  assert (ty = ty0); [|now subst].
  repeat match goal with
  | A : last_value _ _ _ \/ _ |- _ => let X := fresh in destruct A as [A|[A X]]
  | A : last_value _ _ _ |- _ => apply value_some in A
  | A : not_given _ _ |- _ => apply value_none in A
  end; congruence.
Qed.

Lemma c71_refused_ok : forall f W e o name args, (forall c, ~ reaches f e o name c) ->
  let r := rauc f W e o (name :: args) in
  snd r = [] /\ (~ given o "help" -> fst r = 1).
Proof.
  intros f W e o name args H r. subst r. unfold rauc.
  destruct (find (fun c => String.eqb (fst c) name) (commands f)) as [[n c]|] eqn:E; [|split; reflexivity].
  apply find_some in E as [E1 E2]. cbn in E2. apply String.eqb_eq in E2. subst n.
  destruct (forallb _ o) eqn:E3; cbn [negb]; [|split; reflexivity].
  destruct (flag o "help") eqn:E4; [apply flag_given in E4; split; [reflexivity|contradiction]|].
  destruct (e_configured e (mode_of f c)) eqn:E5; cbn [negb]; [|split; reflexivity].
  exfalso. apply (H c). split; [exact E1|]. split; [|split].
  - intros k v Hin. rewrite forallb_forall in E3. specialize (E3 _ Hin). now apply existsb_in in E3.
  - intros G. apply flag_given in G. congruence.
  - rewrite <- (mode_name f name c E1). exact E5.
Qed.

Lemma c71_nothing_ok : forall f W e o, let r := rauc f W e o [] in
  snd r = [] /\ (fst r = 0 <-> given o "version" \/ given o "help") /\ fst r <= 1.
Proof.
  intros f W e o r. subst r. unfold rauc. cbn [fst snd]. split; [reflexivity|].
  destruct (flag o "version") eqn:E1; [apply flag_given in E1; cbn; split; [tauto|lia]|].
  destruct (flag o "help") eqn:E2; [apply flag_given in E2; cbn; split; [tauto|lia]|].
  cbn. split; [|lia]. split; [discriminate|]. intros [H|H]; apply flag_given in H; congruence.
Qed.

(** every entry of the log belongs to what was asked for, or is the query of the status *)
Lemma log_ops : forall f W e o args pre x b post, snd (rauc f W e o args) = pre ++ (x, b) :: post ->
  exists name c rest, args = name :: rest /\ reaches f e o name c /\
    ((exists ops before after, asks f e o c rest ops /\ ops = before ++ x :: after /\ pre = ran before) \/ x = OGetStatus).
Proof.
  intros f W e o args pre x b post H.
  destruct args as [|name rest]; [destruct (c71_nothing_ok f W e o) as [E _]; rewrite E in H; destruct pre; discriminate H|].
  assert (D : (exists c, reaches f e o name c) \/ snd (rauc f W e o (name :: rest)) = []).
  { unfold rauc.
    destruct (find (fun c => String.eqb (fst c) name) (commands f)) as [[n c]|] eqn:E; [|now right].
    apply find_some in E as [E1 E2]. cbn in E2. apply String.eqb_eq in E2. subst n.
    destruct (forallb _ o) eqn:E3; cbn [negb]; [|now right].
    destruct (flag o "help") eqn:E4; [now right|].
    destruct (e_configured e (mode_of f c)) eqn:E5; cbn [negb]; [|now right].
    left. exists c. split; [exact E1|]. split; [|split].
    - intros k v Hin. rewrite forallb_forall in E3. specialize (E3 _ Hin). now apply existsb_in in E3.
    - intros G. apply flag_given in G. congruence.
    - rewrite <- (mode_name f name c E1). exact E5. }
  destruct D as [[c HR]|D]; [|rewrite D in H; destruct pre; discriminate H].
  exists name, c, rest. split; [reflexivity|]. split; [exact HR|].
  rewrite (reaches_start f W e o name c rest HR) in H.
  assert (Hc : c <> CHelp) by (intros ->; cbn in H; destruct pre; discriminate H).
  destruct (start_cases f W e o c rest Hc) as [(ops & A & [[O _]|(bf & y & af & E & O & _)])|[_ [_ [U|[b' U]]]]].
  - left. exists ops. rewrite O in H. unfold ran in H. apply map_eq_app in H as (l1 & l2 & -> & H1 & H2).
    destruct l2 as [|z l2]; [discriminate H2|]. cbn in H2. injection H2 as -> _ _.
    exists l1, l2. split; [exact A|]. split; [reflexivity|]. unfold ran. now rewrite H1.
  - left. rewrite O in H.
    assert (C : pre = ran bf /\ x = y \/ exists b1 b2, bf = b1 ++ x :: b2 /\ pre = ran b1).
    { clear - H. revert bf H. induction pre as [|p pre IH]; intros bf H.
      - destruct bf as [|z bf]; cbn in H; [injection H as -> _ _; now left|]. injection H as -> _ _. right. exists [], bf. now split.
      - destruct bf as [|z bf]; cbn in H; [injection H as _ H; destruct pre; discriminate H|]. injection H as <- H.
        destruct (IH _ H) as [[-> ->]|(b1 & b2 & -> & ->)]; [now left|]. right. exists (z :: b1), b2. now split. }
    destruct C as [[-> ->]|(b1 & b2 & -> & ->)].
    + exists ops, bf, af. now split.
    + exists ops, b1, (b2 ++ y :: af). split; [exact A|]. split; [rewrite E, <- app_assoc; reflexivity|reflexivity].
  - rewrite U in H. destruct pre; discriminate H.
  - right. rewrite U in H. destruct pre as [|p pre]; [now injection H as <- _ _|]. cbn in H. injection H as _ H. destruct pre; discriminate H.
Qed.

Ltac split_ops E :=
  repeat match type of E with
  | _ = ?b ++ _ :: _ => is_var b; let z := fresh "z" in destruct b as [|z b]; cbn in E; [injection E as E; intros|injection E as E; intros]
  end.

Lemma ops_cases : forall f e o c rest ops before x after, asks f e o c rest ops -> ops = before ++ x :: after ->
  match x with
  | OCheck b nv nt te ac => exists a, In a rest /\ (b = a \/ e_resolve e a = Some b) /\
      (nv = true -> given o "no-verify" /\ In c [CResign; CReplaceSig; CConvert; CInfo]) /\
      (nt = true -> given o "no-check-time" /\ In c [CResign; CInfo]) /\
      (te = true -> given o "trust-environment" /\ In c [CReplaceSig; CExtractSig; CExtract; CConvert]) /\ (ac = true -> c = CInfo)
  | OCreate _ _ => given o "cert" /\ given o "key"
  | OResign _ _ | OConvert _ _ => given o "cert" /\ given o "key" /\ exists b nv nt te ac, In (OCheck b nv nt te ac) before
  | OReplace _ _ | OExtractSig _ | OExtract _ | OEncrypt _ | OLoadManifest | OShow _ | OMount => exists b nv nt te ac, In (OCheck b nv nt te ac) before
  | OWrite slot img ty => exists l1 l2, e_slots e = l1 ++ (slot, false) :: l2 /\ forall r, ~ In (slot, r) l1
  | _ => True
  end.
Proof.
  intros f e o c rest ops before x after A E.
  inversion A; subst;
    repeat (match goal with H : _ :: _ = before ++ _ |- _ => destruct before as [|z before]; cbn in H; [injection H as <- <-|injection H as <- H] end || fail);
    try (match goal with H : [] = before ++ _ |- _ => destruct before; discriminate H end); try exact Logic.I; auto;
    try (eexists; split; [left; reflexivity|]; split; [first [left; reflexivity|right; eassumption]|];
         repeat split; try discriminate; intros; try (match goal with S : says _ ?n ?b, X : ?b = true |- given _ ?n => exact (proj1 S X) end); cbn; tauto);
    try (split; [assumption|split; [assumption|]]); try (do 5 eexists; left; reflexivity).
Qed.

Lemma ran_in : forall x b l, In (x, b) (ran l) -> In x l /\ b = true.
Proof. intros x b l H. unfold ran in H. apply in_map_iff in H as (y & E & Hy). injection E as -> <-. now split. Qed.

Lemma c71_flags_ok : forall f W e o args b nv nt te ac r, In (OCheck b nv nt te ac, r) (snd (rauc f W e o args)) ->
  exists name c rest, args = name :: rest /\ In (name, c) (commands f) /\
    (exists a, In a rest /\ (b = a \/ e_resolve e a = Some b)) /\
    (nv = true -> given o "no-verify" /\ In c [CResign; CReplaceSig; CConvert; CInfo]) /\
    (nt = true -> given o "no-check-time" /\ In c [CResign; CInfo]) /\
    (te = true -> given o "trust-environment" /\ In c [CReplaceSig; CExtractSig; CExtract; CConvert]).
Proof.
  intros f W e o args b nv nt te ac r H. apply in_split in H as (pre & post & H).
  destruct (log_ops _ _ _ _ _ _ _ _ _ H) as (name & c & rest & -> & HR & [(ops & bf & af & A & E & _)|X]); [|discriminate X].
  exists name, c, rest. split; [reflexivity|]. split; [exact (proj1 HR)|].
  destruct (ops_cases _ _ _ _ _ _ _ _ _ A E) as (a & H1 & H2 & H3 & H4 & H5 & _). repeat split; try (now apply H3); try (now apply H4); try (now apply H5). now exists a.
Qed.

Lemma c71_checked_ok : forall f W e o args pre x r post, snd (rauc f W e o args) = pre ++ (x, r) :: post -> needs_bundle x ->
  exists b nv nt te ac, In (OCheck b nv nt te ac, true) pre.
Proof.
  intros f W e o args pre x r post H N.
  destruct (log_ops _ _ _ _ _ _ _ _ _ H) as (name & c & rest & -> & HR & [(ops & bf & af & A & E & ->)| ->]); [|destruct N].
  assert (B : exists b nv nt te ac, In (OCheck b nv nt te ac) bf).
  { pose proof (ops_cases _ _ _ _ _ _ _ _ _ A E) as P. destruct x; try (exact P); try (exact (proj2 (proj2 P))); destruct N. }
  destruct B as (b & nv & nt & te & ac & B). exists b, nv, nt, te, ac. unfold ran. apply in_map_iff. eexists. split; [reflexivity|exact B].
Qed.

Lemma c71_keys_ok : forall f W e o args x r, In (x, r) (snd (rauc f W e o args)) ->
  match x with OCreate _ _ | OResign _ _ | OConvert _ _ => True | _ => False end -> given o "cert" /\ given o "key".
Proof.
  intros f W e o args x r H X. apply in_split in H as (pre & post & H).
  destruct (log_ops _ _ _ _ _ _ _ _ _ H) as (name & c & rest & -> & HR & [(ops & bf & af & A & E & _)| ->]); [|destruct X].
  pose proof (ops_cases _ _ _ _ _ _ _ _ _ A E) as P. destruct x; try destruct X; (split; [apply P|apply P]).
Qed.

Lemma c71_readonly_ok : forall f W e o args slot image ty r, In (OWrite slot image ty, r) (snd (rauc f W e o args)) ->
  NoDup (map fst (e_slots e)) -> In (slot, false) (e_slots e) /\ ~ In (slot, true) (e_slots e).
Proof.
  intros f W e o args slot image ty r H N. apply in_split in H as (pre & post & H).
  destruct (log_ops _ _ _ _ _ _ _ _ _ H) as (name & c & rest & -> & HR & [(ops & bf & af & A & E & _)|X]); [|discriminate X].
  destruct (ops_cases _ _ _ _ _ _ _ _ _ A E) as (l1 & l2 & Es & Hn). rewrite Es in *. split; [apply in_elt|].
  rewrite map_app in N. cbn in N. apply NoDup_remove_2 in N. intros Hin. apply in_app_iff in Hin as [Hin|[Hin|Hin]].
  - now apply (Hn true).
  - discriminate Hin.
  - apply N. apply in_app_iff. right. apply in_map_iff. now exists (slot, true).
Qed.

(** *** the check of the output path *)
Lemma rstrip_plain : forall c, no_char "/" c = true -> rstrip c = c.
Proof.
  induction c as [|a c IH]; [reflexivity|]. intros H. unfold no_char in H. cbn [all_chars] in H. apply andb_true_iff in H as [H1 H2]. cbn [rstrip].
  rewrite (IH H2). destruct c; [|reflexivity]. destruct (Ascii.eqb_spec a "/") as [->|]; [|reflexivity]. discriminate H1.
Qed.
Lemma rstrip_app : forall s c, c <> ""%string -> no_char "/" c = true -> rstrip (s ++ c) = (s ++ c)%string.
Proof.
  induction s as [|a s IH]; intros c Hc Hn; [now apply rstrip_plain|]. cbn [append rstrip]. rewrite (IH c Hc Hn).
  destruct (s ++ c)%string eqn:E; [destruct s; [cbn in E; contradiction|discriminate E]|reflexivity].
Qed.
Lemma before_last_none : forall c, no_char "/" c = true -> before_last_slash c = None.
Proof.
  induction c as [|a c IH]; [reflexivity|]. intros H. unfold no_char in H. cbn [all_chars] in H. apply andb_true_iff in H as [H1 H2]. cbn [before_last_slash].
  rewrite (IH H2). destruct (Ascii.eqb_spec a "/") as [->|]; [discriminate H1|reflexivity].
Qed.
Lemma before_last_app : forall p c, no_char "/" c = true -> before_last_slash (p ++ String "/" c) = Some p.
Proof.
  induction p as [|a p IH]; intros c Hc.
  - cbn [append before_last_slash]. now rewrite (before_last_none c Hc).
  - cbn [append before_last_slash]. now rewrite (IH c Hc).
Qed.
Lemma strip_slash_slash : forall s, strip_slash (s ++ "/") = s.
Proof.
  induction s as [|a s IH]; [reflexivity|]. cbn [append]. cbn [strip_slash]. destruct (s ++ "/")%string eqn:E; [destruct s; discriminate E|]. now rewrite IH.
Qed.
Lemma strip_slash_plain : forall s c, c <> ""%string -> no_char "/" c = true -> strip_slash (s ++ c) = (s ++ c)%string.
Proof.
  intros s c Hc Hn. assert (B : strip_slash c = c).
  { clear Hc. induction c as [|a c IH]; [reflexivity|]. unfold no_char in Hn. cbn [all_chars] in Hn. apply andb_true_iff in Hn as [H1 H2]. cbn [strip_slash].
    destruct c as [|a2 c]; [destruct (Ascii.eqb a "/") eqn:Ea; [apply Ascii.eqb_eq in Ea; subst a; discriminate H1|reflexivity]|]. now rewrite (IH H2). }
  induction s as [|a s IH]; [exact B|]. cbn [append]. cbn [strip_slash]. destruct (s ++ c)%string eqn:E; [destruct s; [cbn in E; contradiction|discriminate E]|]. now rewrite IH.
Qed.
Lemma abs_snoc : forall l x, l <> [] -> abs_path (l ++ [x]) = (abs_path l ++ "/" ++ x)%string.
Proof.
  intros l x H. unfold abs_path. rewrite app_assoc_s. f_equal. induction l as [|a l IH]; [contradiction|].
  destruct l as [|b l]; [reflexivity|]. cbn [app join]. cbn [app join] in IH. rewrite IH by discriminate. now rewrite !app_assoc_s.
Qed.
Lemma abs_last : forall l, l <> [] -> Forall component l -> exists s c, abs_path l = (s ++ c)%string /\ c <> ""%string /\ no_char "/" c = true.
Proof.
  intros l H F. destruct l as [|x l _] using rev_ind; [contradiction|]. apply Forall_app in F as [_ F]. inversion F as [|y l' (C1 & _ & _ & C2)]; subst.
  destruct l as [|a l]; [exists "/"%string, x; now repeat split|].
  rewrite abs_snoc by discriminate. exists (abs_path (a :: l) ++ "/")%string, x. rewrite app_assoc_s. now repeat split.
Qed.
Lemma abs_prefix : forall a b, a <> [] -> has_prefix (abs_path a) (abs_path (a ++ b)) = true.
Proof.
  intros a b Ha. assert (E : exists r, abs_path (a ++ b) = (abs_path a ++ r)%string).
  { induction b as [|x b IH] using rev_ind; [exists ""%string; now rewrite app_nil_r, app_nil_r_s|]. destruct IH as [r IH].
    rewrite app_assoc, abs_snoc by (destruct a; [contradiction|discriminate]). rewrite IH, app_assoc_s. eauto. }
  destruct E as [r ->]. apply has_prefix_make.
Qed.

Lemma c71_outside_ok : forall cwd ic oc content, ic <> [] -> Forall component ic -> Forall component oc ->
  content = abs_path ic \/ content = (abs_path ic ++ "/")%string ->
  outside_check cwd content (abs_path oc) = true -> forall r file, oc <> ic ++ r ++ [file].
Proof.
  intros cwd ic oc content Hne Fi Fo Hc H r file E. subst oc.
  destruct (abs_last ic Hne Fi) as (s & c & Es & Hc1 & Hc2).
  unfold outside_check in H. apply negb_true_iff in H.
  assert (R1 : resolve_path cwd content = content).
  { unfold resolve_path. destruct Hc as [-> | ->]; reflexivity. }
  assert (R2 : resolve_path cwd (abs_path (ic ++ r ++ [file])) = abs_path (ic ++ r ++ [file])) by reflexivity.
  rewrite R1, R2 in H.
  assert (S1 : strip_slash content = abs_path ic).
  { destruct Hc as [-> | ->]; [rewrite Es; now apply strip_slash_plain|apply strip_slash_slash]. }
  rewrite S1 in H.
  rewrite app_assoc in Fo, H. apply Forall_app in Fo as [Fo Ff]. inversion Ff as [|y l' (_ & _ & _ & Fc)]; subst y l'.
  assert (N : ic ++ r <> []) by (destruct ic; [contradiction|discriminate]).
  rewrite (abs_snoc _ _ N) in H. unfold dirname in H. change ("/" ++ file)%string with (String "/" file) in H. rewrite (before_last_app _ _ Fc) in H.
  destruct (abs_last _ N Fo) as (s2 & c2 & Es2 & Hd1 & Hd2). rewrite Es2, (rstrip_app s2 c2 Hd1 Hd2), <- Es2 in H.
  assert (P : has_prefix (abs_path ic) (abs_path (ic ++ r)) = true) by now apply abs_prefix.
  change (abs_path (ic ++ r)) with (String "/" (join "/" (ic ++ r))) in H at 1. cbn iota in H. change (String "/" (join "/" (ic ++ r))) with (abs_path (ic ++ r)) in H. congruence.
Qed.

Lemma c71_dot_accepted_refuted : exists cwd content out, component content /\
  outside_check cwd ("./" ++ content) out = true /\
  exists r file, location (resolve_path cwd out) = location (resolve_path cwd ("./" ++ content)) ++ r ++ [file].
Proof.
  exists "/w"%string, "content"%string, "content/x.raucb"%string. split; [repeat split; discriminate|]. split; [reflexivity|].
  exists [], "x.raucb"%string. reflexivity.
Qed.

Lemma c71_sibling_rejected_refuted : exists cwd ic oc, Forall component ic /\ Forall component oc /\
  outside_check cwd (abs_path ic) (abs_path oc) = false /\ forall r file, oc <> ic ++ r ++ [file].
Proof.
  exists "/"%string, ["w"; "content"]%string, ["w"; "content-out"; "x.raucb"]%string.
  split; [repeat constructor; discriminate|]. split; [repeat constructor; discriminate|]. split; [reflexivity|]. intros r file E. cbn in E. injection E as E _. discriminate E.
Qed.
