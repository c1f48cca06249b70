(** Reading a group key by key: what the parsing functions return and leave *)
From Verif Require Import Base BaseLemmas KeyFile KeyFileLemmas Config ConfigSpec.

Lemma mem_in l s : mem l s = true <-> In s l.
Proof.
  unfold mem. rewrite existsb_exists. split.
  - intros (x & X1 & X2). apply String.eqb_eq in X2. now subst.
  - intros H. exists s. split; [exact H|apply String.eqb_refl].
Qed.

Definition drop (U : list string) (l : group) : group := filter (fun e => negb (mem U (fst e))) l.
Definition at_ (g : string) (U : list string) (l : group) (kf : keyfile) : Prop := kf_group kf g = Some (drop U l).

Lemma drop_nil l : drop [] l = l.
Proof. unfold drop. induction l as [|e l IH]; [reflexivity|]. cbn [filter mem existsb negb]. now f_equal. Qed.
Lemma drop_cons k U l : assoc_remove k (drop U l) = drop (k :: U) l.
Proof.
  unfold drop, assoc_remove. induction l as [|e l IH]; [reflexivity|]. cbn [filter mem existsb].
  destruct (mem U (fst e)) eqn:E; cbn [negb]; change (existsb (String.eqb (fst e)) U) with (mem U (fst e)); rewrite E.
  - rewrite orb_true_r. cbn [negb]. exact IH.
  - rewrite orb_false_r. cbn [filter]. destruct (String.eqb (fst e) k); cbn [negb]; now rewrite IH.
Qed.
Lemma assoc_drop U k l : mem U k = false -> assoc k (drop U l) = assoc k l.
Proof.
  intros H. induction l as [|[k' v] l IH]; [reflexivity|]. cbn [drop filter fst assoc].
  destruct (String.eqb_spec k' k) as [->|N].
  - rewrite H. cbn [negb assoc]. now rewrite String.eqb_refl.
  - destruct (mem U k'); cbn [negb assoc]; [exact IH|]. destruct (String.eqb_spec k' k); [contradiction|exact IH].
Qed.
Lemma drop_missing U k l : assoc k l = None -> drop (k :: U) l = drop U l.
Proof.
  intros H. unfold drop. apply filter_ext_in. intros [k' v] Hin. cbn [fst mem existsb].
  destruct (String.eqb_spec k' k) as [->|]; [|reflexivity]. exfalso. apply (proj1 (assoc_none k l) H). apply in_map_iff. exists (k, v). auto.
Qed.
Lemma drop_all U l : drop U l = [] -> forall k, In k (map fst l) -> In k U.
Proof.
  intros H k Hk. apply in_map_iff in Hk as ([k' v] & <- & Hin). cbn [fst]. apply mem_in.
  destruct (mem U k') eqn:E; [reflexivity|]. assert (In (k', v) (drop U l)) by (apply filter_In; split; [exact Hin|cbn; now rewrite E]).
  rewrite H in H0. destruct H0.
Qed.

Lemma groups_set g v kf : assoc g kf <> None -> kf_groups (assoc_set g v kf) = kf_groups kf.
Proof.
  intros H. unfold kf_groups. rewrite assoc_set_keys. destruct (existsb (String.eqb g) (map fst kf)) eqn:E; [reflexivity|].
  exfalso. apply H. apply assoc_none. intros K. assert (existsb (String.eqb g) (map fst kf) = true) by (apply existsb_exists; exists g; split; [exact K|apply String.eqb_refl]). congruence.
Qed.

Lemma remove_key_at g U l kf k : at_ g U l kf -> at_ g (k :: U) l (kf_remove_key kf g k).
Proof.
  unfold at_, kf_remove_key. intros H. rewrite H. unfold kf_group. rewrite assoc_set_eq. now rewrite drop_cons.
Qed.

(** ** frames *)
Definition touches {A} (T : string -> Prop) (m : M A) : Prop :=
  forall kf a kf', m kf = Ok (a, kf') ->
    (forall g, ~ T g -> kf_group kf' g = kf_group kf g) /\
    (forall g, In g (kf_groups kf') -> In g (kf_groups kf)) /\
    (forall g, In g (kf_groups kf) -> In g (kf_groups kf') \/ T g) /\
    (NoDup (kf_groups kf) -> NoDup (kf_groups kf')).

Lemma mbind_inv {A B} (m : M A) (f : A -> M B) kf b kf' : mbind m f kf = Ok (b, kf') -> exists a kf1, m kf = Ok (a, kf1) /\ f a kf1 = Ok (b, kf').
Proof. unfold mbind. destruct (m kf) as [[a kf1]| |]; cbn; try discriminate. intros H. exists a, kf1. auto. Qed.
Lemma ret_inv {A} (a b : A) kf kf' : ret a kf = Ok (b, kf') -> b = a /\ kf' = kf.
Proof. unfold ret. intros H. apply Ok_inj in H. injection H as <- <-. auto. Qed.
Lemma guard_inv b u kf kf' : guard b kf = Ok (u, kf') -> b = true /\ kf' = kf.
Proof. unfold guard. destruct b; [|discriminate]. intros H. apply ret_inv in H. tauto. Qed.

Lemma touches_ret {A} T (a : A) : touches T (ret a).
Proof. intros kf b kf' H. apply ret_inv in H as [_ ->]. auto. Qed.
Lemma touches_fail {A} T : touches T (@fail A).
Proof. intros kf b kf' H. discriminate. Qed.
Lemma touches_guard T b : touches T (guard b).
Proof. destruct b; [apply touches_ret|apply touches_fail]. Qed.
Lemma touches_bind {A B} T (m : M A) (f : A -> M B) : touches T m -> (forall a, touches T (f a)) -> touches T (mbind m f).
Proof.
  intros H1 H2 kf b kf' H. apply mbind_inv in H as (a & kf1 & A1 & A2).
  destruct (H1 _ _ _ A1) as (P1 & P2 & P3 & P4). destruct (H2 a _ _ _ A2) as (Q1 & Q2 & Q3 & Q4). split; [|split; [|split]].
  - intros g N. rewrite Q1, P1 by assumption. reflexivity.
  - auto.
  - intros g G. destruct (P3 g G) as [K|K]; [|now right]. apply Q3. exact K.
  - auto.
Qed.
Lemma touches_weaken {A} (T T' : string -> Prop) (m : M A) : (forall g, T g -> T' g) -> touches T m -> touches T' m.
Proof.
  intros W H kf a kf' E. destruct (H _ _ _ E) as (P1 & P2 & P3 & P4). split; [|split; [|split]]; auto.
  intros g G. destruct (P3 g G); auto.
Qed.
Lemma touches_rmkey (T : string -> Prop) g k kf : T g ->
    (forall h, ~ T h -> kf_group (kf_remove_key kf g k) h = kf_group kf h) /\
    (forall h, In h (kf_groups (kf_remove_key kf g k)) -> In h (kf_groups kf)) /\
    (forall h, In h (kf_groups kf) -> In h (kf_groups (kf_remove_key kf g k)) \/ T h) /\
    (NoDup (kf_groups kf) -> NoDup (kf_groups (kf_remove_key kf g k))).
Proof.
  intros TG. unfold kf_remove_key. destruct (kf_group kf g) as [l|] eqn:E; [|auto].
  rewrite (groups_set g) by (unfold kf_group in E; congruence). split; [|auto].
  intros h N. unfold kf_group. apply assoc_set_neq. intros <-. contradiction.
Qed.
Lemma touches_consume (T : string -> Prop) g k : T g -> touches T (consume g k).
Proof. intros TG kf a kf' H. unfold consume in H. apply Ok_inj in H. injection H as _ <-. now apply touches_rmkey. Qed.
Lemma touches_remove_key (T : string -> Prop) g k : T g -> touches T (remove_key g k).
Proof. intros TG kf a kf' H. unfold remove_key in H. apply Ok_inj in H. injection H as _ <-. now apply touches_rmkey. Qed.
Lemma touches_get_null (T : string -> Prop) g k : T g -> touches T (get_null g k).
Proof. intros. apply touches_bind; [now apply touches_consume|]. intros. apply touches_ret. Qed.
Lemma touches_get_opt (T : string -> Prop) g k : T g -> touches T (get_opt g k).
Proof. intros. apply touches_bind; [now apply touches_consume|]. intros []; first [apply touches_ret|apply touches_fail]. Qed.
Lemma touches_get_req (T : string -> Prop) g k : T g -> touches T (get_req g k).
Proof. intros. apply touches_bind; [now apply touches_consume|]. intros []; first [apply touches_ret|apply touches_fail]. Qed.
Lemma touches_get_size (T : string -> Prop) g k : T g -> touches T (get_size g k).
Proof. intros. apply touches_bind; [now apply touches_consume|]. intros []; first [apply touches_ret|apply touches_fail]. Qed.
Lemma touches_peek_bool T g k : touches T (peek_bool g k).
Proof.
  intros kf a kf' H. unfold peek_bool in H. destruct (kf_group kf g); [|discriminate]. destruct (assoc k g0); [destruct (bool_value s); [|discriminate]|];
  apply Ok_inj in H; injection H as _ <-; auto.
Qed.
Lemma touches_get_bool (T : string -> Prop) g k d : T g -> touches T (get_bool g k d).
Proof. intros. apply touches_bind; [apply touches_peek_bool|]. intros. apply touches_bind; [now apply touches_remove_key|]. intros. apply touches_ret. Qed.
Lemma touches_get_int (T : string -> Prop) g k : T g -> touches T (get_int g k).
Proof.
  intros TG kf a kf' H. unfold get_int in H. destruct (kf_group kf g); [|discriminate]. destruct (assoc k g0); [destruct (int_value s); [|discriminate]|];
  apply Ok_inj in H; injection H as _ <-; [now apply touches_rmkey|auto].
Qed.
Lemma touches_get_u64 (T : string -> Prop) g k d : T g -> touches T (get_u64 g k d).
Proof.
  intros TG kf a kf' H. unfold get_u64 in H. destruct (kf_group kf g); [|discriminate]. destruct (assoc k g0); [destruct (strtoull_all s); [|discriminate]|];
  apply Ok_inj in H; injection H as _ <-; [now apply touches_rmkey|auto].
Qed.
Lemma touches_get_list (T : string -> Prop) g k : T g -> touches T (get_list g k).
Proof.
  intros TG kf a kf' H. unfold get_list in H. destruct (kf_group kf g); [|discriminate]. destruct (assoc k g0);
  apply Ok_inj in H; injection H as _ <-; [now apply touches_rmkey|auto].
Qed.
Lemma touches_get_list_allowed (T : string -> Prop) g k al : T g -> touches T (get_list_allowed g k al).
Proof.
  intros TG. apply touches_bind; [now apply touches_get_list|]. intros [[|x l]|]; try apply touches_ret.
  apply touches_bind; [apply touches_guard|]. intros. apply touches_ret.
Qed.
Lemma NoDup_filter_fst {B} (f : string * B -> bool) (l : list (string * B)) : NoDup (map fst l) -> NoDup (map fst (filter f l)).
Proof.
  induction l as [|e l IH]; cbn; intros H; [constructor|]. inversion H as [|? ? H1 H2]; subst. destruct (f e); cbn; [|auto].
  constructor; [|auto]. intros K. apply H1. apply in_map_iff in K as (x & X1 & X2). apply filter_In in X2 as [X2 _]. rewrite <- X1. now apply in_map.
Qed.
Lemma touches_finish (T : string -> Prop) g : T g -> touches T (finish g).
Proof.
  intros TG. apply touches_bind.
  - intros kf a kf' H. unfold check_keys in H. destruct (kf_keys kf g); [|discriminate]. apply Ok_inj in H. injection H as _ <-. auto.
  - intros _ kf a kf' H. unfold remove_group in H. apply Ok_inj in H. injection H as _ <-. unfold kf_remove_group. split; [|split; [|split]].
    + intros h N. apply assoc_remove_neq. intros <-. contradiction.
    + intros h H. unfold kf_groups, assoc_remove in *. apply in_map_iff in H as (x & <- & X). apply filter_In in X as [X _]. now apply in_map.
    + intros h H. destruct (string_dec h g) as [->|N]; [now right|]. left. unfold kf_groups, assoc_remove in *.
      apply in_map_iff in H as (x & <- & X). apply in_map_iff. exists x. split; [reflexivity|]. apply filter_In. split; [exact X|].
      apply Bool.negb_true_iff. now apply String.eqb_neq.
    + apply NoDup_filter_fst.
Qed.
Lemma touches_lift {A} T (r : res A) : touches T (fun kf => do x <- r ;; Ok (x, kf)).
Proof. intros kf a kf' H. destruct r; try discriminate. cbn in H. apply Ok_inj in H. injection H as _ <-. auto. Qed.
Lemma touches_groups T : touches T groups.
Proof. intros kf a kf' H. unfold groups in H. apply Ok_inj in H. injection H as _ <-. auto. Qed.
Lemma touches_section {A} (T : string -> Prop) g (d : A) m : T g -> touches T m -> touches T (section g d m).
Proof.
  intros TG H kf a kf' E. unfold section in E. destruct (has_group kf g).
  - revert E. apply touches_bind; [exact H|]. intros x. apply touches_bind; [now apply touches_finish|]. intros. apply touches_ret.
  - apply Ok_inj in E. injection E as _ <-. auto.
Qed.
Lemma touches_mmap {A B} T (f : A -> M (option B)) l : (forall a, In a l -> touches T (f a)) -> touches T (mmap f l).
Proof.
  induction l as [|a l IH]; intros H; cbn [mmap]; [apply touches_ret|].
  apply touches_bind; [apply H; now left|]. intros b. apply touches_bind; [apply IH; intros; apply H; now right|]. intros. apply touches_ret.
Qed.

Ltac touch :=
  repeat first
    [ apply touches_ret | apply touches_fail | apply touches_guard | apply touches_peek_bool | apply touches_lift | apply touches_groups
    | apply touches_get_null; auto | apply touches_get_opt; auto | apply touches_get_req; auto | apply touches_get_size; auto
    | apply touches_get_bool; auto | apply touches_get_int; auto | apply touches_get_u64; auto | apply touches_get_list; auto
    | apply touches_get_list_allowed; auto | apply touches_finish; auto | apply touches_remove_key; auto | apply touches_section; auto
    | apply touches_bind; [|intros ?]
    | match goal with |- touches _ (match ?x with _ => _ end) => destruct x end
    | match goal with |- touches _ (let '_ := ?x in _) => destruct x end ].

(** ** what the getters return *)
Definition v_str (l : group) (k : string) : option string := match assoc k l with Some EmptyString => None | o => o end.
Definition v_bool (l : group) (k : string) (d : bool) : bool :=
  match assoc k l with Some v => String.eqb v "true" || String.eqb v "1" | None => d end.

Lemma consume_inv g U l kf k a kf' : at_ g U l kf -> mem U k = false -> consume g k kf = Ok (a, kf') ->
  a = match assoc k l with None => NoKey | Some EmptyString => EmptyVal | Some s => Val s end /\ at_ g (k :: U) l kf'.
Proof.
  intros H HU E. unfold consume in E. apply Ok_inj in E. injection E as <- <-. split; [|now apply remove_key_at].
  unfold lookup3. rewrite H, assoc_drop by assumption. reflexivity.
Qed.
Lemma get_null_inv g U l kf k a kf' : at_ g U l kf -> mem U k = false -> get_null g k kf = Ok (a, kf') ->
  a = v_str l k /\ at_ g (k :: U) l kf'.
Proof.
  intros H HU E. apply mbind_inv in E as (r & kf1 & E1 & E2). destruct (consume_inv _ _ _ _ _ _ _ H HU E1) as (-> & A).
  apply ret_inv in E2 as (-> & ->). split; [|exact A]. unfold v_str. destruct (assoc k l) as [[|]|]; reflexivity.
Qed.
Lemma get_opt_inv g U l kf k a kf' : at_ g U l kf -> mem U k = false -> get_opt g k kf = Ok (a, kf') ->
  a = v_str l k /\ a = assoc k l /\ at_ g (k :: U) l kf'.
Proof.
  intros H HU E. apply mbind_inv in E as (r & kf1 & E1 & E2). destruct (consume_inv _ _ _ _ _ _ _ H HU E1) as (-> & A).
  unfold v_str. destruct (assoc k l) as [[|]|]; try discriminate; apply ret_inv in E2 as (-> & ->); auto.
Qed.
Lemma get_req_inv g U l kf k a kf' : at_ g U l kf -> mem U k = false -> get_req g k kf = Ok (a, kf') ->
  v_str l k = Some a /\ at_ g (k :: U) l kf'.
Proof.
  intros H HU E. apply mbind_inv in E as (r & kf1 & E1 & E2). destruct (consume_inv _ _ _ _ _ _ _ H HU E1) as (-> & A).
  unfold v_str. destruct (assoc k l) as [[|]|]; try discriminate; apply ret_inv in E2 as (-> & ->); auto.
Qed.
Lemma get_size_inv g U l kf k a kf' : at_ g U l kf -> mem U k = false -> get_size g k kf = Ok (a, kf') ->
  a = match v_str l k with Some s => Some (binary_suffixed s) | None => None end /\ at_ g (k :: U) l kf'.
Proof.
  intros H HU E. apply mbind_inv in E as (r & kf1 & E1 & E2). destruct (consume_inv _ _ _ _ _ _ _ H HU E1) as (-> & A).
  unfold v_str. destruct (assoc k l) as [[|]|]; try discriminate; apply ret_inv in E2 as (-> & ->); auto.
Qed.
Lemma bool_value_spec s b : bool_value s = Some b -> b = (String.eqb s "true" || String.eqb s "1").
Proof. unfold bool_value. destruct (String.eqb s "true" || String.eqb s "1"); [congruence|]. destruct (_ || _); congruence. Qed.
Lemma peek_bool_inv g U l kf k a kf' : at_ g U l kf -> mem U k = false -> peek_bool g k kf = Ok (a, kf') ->
  a = match assoc k l with Some v => Some (String.eqb v "true" || String.eqb v "1") | None => None end /\ kf' = kf.
Proof.
  intros H HU E. unfold peek_bool in E. rewrite H, assoc_drop in E by assumption.
  destruct (assoc k l) as [s|]; [destruct (bool_value s) as [b|] eqn:B; [|discriminate]|]; apply Ok_inj in E; injection E as <- <-; [|auto].
  apply bool_value_spec in B. subst. auto.
Qed.
Lemma remove_key_inv g U l kf k a kf' : at_ g U l kf -> remove_key g k kf = Ok (a, kf') -> at_ g (k :: U) l kf'.
Proof. intros H E. unfold remove_key in E. apply Ok_inj in E. injection E as _ <-. now apply remove_key_at. Qed.
Lemma get_bool_inv g U l kf k d a kf' : at_ g U l kf -> mem U k = false -> get_bool g k d kf = Ok (a, kf') ->
  a = v_bool l k d /\ at_ g (k :: U) l kf'.
Proof.
  intros H HU E. apply mbind_inv in E as (b & kf1 & E1 & E). destruct (peek_bool_inv _ _ _ _ _ _ _ H HU E1) as (-> & ->).
  apply mbind_inv in E as (u & kf2 & E2 & E3). apply (remove_key_inv _ _ _ _ _ _ _ H) in E2. apply ret_inv in E3 as (-> & ->).
  split; [|exact E2]. unfold v_bool. destruct (assoc k l); reflexivity.
Qed.
Lemma get_int_inv g U l kf k a kf' : at_ g U l kf -> mem U k = false -> get_int g k kf = Ok (a, kf') ->
  a = match assoc k l with Some v => int_value v | None => None end /\ (a = None -> assoc k l = None) /\ at_ g (k :: U) l kf'.
Proof.
  intros H HU E. unfold get_int in E. rewrite H, assoc_drop in E by assumption.
  destruct (assoc k l) as [s|] eqn:K; [destruct (int_value s) as [b|] eqn:B; [|discriminate]|]; apply Ok_inj in E; injection E as <- <-.
  - split; [congruence|]. split; [discriminate|now apply remove_key_at].
  - split; [reflexivity|]. split; [auto|]. unfold at_. now rewrite drop_missing.
Qed.
Lemma get_u64_inv g U l kf k d a kf' : at_ g U l kf -> mem U k = false -> get_u64 g k d kf = Ok (a, kf') ->
  match assoc k l with Some v => strtoull_all v = Some a | None => a = d end /\ at_ g (k :: U) l kf'.
Proof.
  intros H HU E. unfold get_u64 in E. rewrite H, assoc_drop in E by assumption.
  destruct (assoc k l) as [s|] eqn:K; [destruct (strtoull_all s) as [b|] eqn:B; [|discriminate]|]; apply Ok_inj in E; injection E as <- <-.
  - split; [congruence|now apply remove_key_at].
  - split; [reflexivity|]. unfold at_. now rewrite drop_missing.
Qed.
Lemma get_list_inv g U l kf k a kf' : at_ g U l kf -> mem U k = false -> get_list g k kf = Ok (a, kf') ->
  a = match assoc k l with Some v => Some (value_list v) | None => None end /\ at_ g (k :: U) l kf'.
Proof.
  intros H HU E. unfold get_list in E. rewrite H, assoc_drop in E by assumption.
  destruct (assoc k l) as [s|] eqn:K; apply Ok_inj in E; injection E as <- <-.
  - split; [congruence|now apply remove_key_at].
  - split; [reflexivity|]. unfold at_. now rewrite drop_missing.
Qed.
Lemma get_list_allowed_inv g U l kf k al a kf' : at_ g U l kf -> mem U k = false -> get_list_allowed g k al kf = Ok (a, kf') ->
  at_ g (k :: U) l kf'.
Proof.
  intros H HU E. apply mbind_inv in E as (b & kf1 & E1 & E). destruct (get_list_inv _ _ _ _ _ _ _ H HU E1) as (_ & A).
  destruct b as [[|x b]|]; try (apply ret_inv in E as (_ & ->); exact A).
  apply mbind_inv in E as (u & kf2 & E2 & E3). apply guard_inv in E2 as (_ & ->). apply ret_inv in E3 as (_ & ->). exact A.
Qed.
Lemma finish_inv g U l kf a kf' : at_ g U l kf -> finish g kf = Ok (a, kf') ->
  (forall k, In k (map fst l) -> In k U) /\ kf' = kf_remove_group kf g.
Proof.
  intros H E. apply mbind_inv in E as (u & kf1 & E1 & E2). unfold check_keys, kf_keys in E1. rewrite H in E1.
  destruct (map fst (drop U l)) eqn:D; [|discriminate]. apply Ok_inj in E1. injection E1 as _ <-. unfold remove_group in E2. apply Ok_inj in E2. injection E2 as _ <-.
  split; [|reflexivity]. apply drop_all. now destruct (drop U l).
Qed.
