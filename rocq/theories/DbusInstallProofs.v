From Verif Require Import Base BaseLemmas KeyFile KeyFileLemmas Image Manifest DbusInstall DbusInstallSpec.

(** ** options *)
Lemma dict_of_assoc : forall l k, assoc k (dict_of l) = value_of l k.
Proof.
  intros l k. unfold dict_of, value_of. rewrite <- fold_left_rev_right. induction (rev l) as [|[k' v] r IH]; [reflexivity|]. cbn [fold_right fst snd assoc].
  destruct (String.eqb_spec k' k) as [->|Hne]; [apply assoc_set_eq|]. rewrite assoc_set_neq by exact Hne. exact IH.
Qed.
(** what is left after the options in [U] were taken *)
Definition agree (A : string -> option val) (U : string -> bool) (d : list (string * val)) : Prop := forall k, assoc k d = if U k then None else A k.
Definition is_b (v : option val) : bool := match v with Some (VB _) => true | _ => false end.
Definition is_s (v : option val) : bool := match v with Some (VS _) => true | _ => false end.
Definition is_as (v : option val) : bool := match v with Some (VAS _) => true | _ => false end.
Definition more (U : string -> bool) (k : string) (t : bool) : string -> bool := fun j => U j || (String.eqb j k && t).
Lemma more_agree : forall A U k d, agree A U d -> agree A (more U k true) (assoc_remove k d).
Proof.
  intros A U k d H j. unfold more. rewrite andb_true_r. destruct (String.eqb_spec j k) as [->|Hne]; [rewrite orb_true_r; apply assoc_remove_eq|]. rewrite orb_false_r. rewrite assoc_remove_neq by congruence. apply H.
Qed.
Lemma same_agree : forall A U k d, agree A U d -> agree A (more U k false) d.
Proof. intros A U k d H j. unfold more. rewrite andb_false_r, orb_false_r. apply H. Qed.
Lemma take_b_ok : forall A U k x d, agree A U d -> U k = false ->
  exists d', take_b k x d = (match A k with Some (VB b) => b | _ => x end, d') /\ agree A (more U k (is_b (A k))) d'.
Proof.
  intros A U k x d H F. unfold take_b. pose proof (H k) as Hk. rewrite F in Hk. rewrite Hk.
  destruct (A k) as [[b|s|l|t]|]; cbn [is_b]; eexists; (split; [reflexivity|]); first [apply more_agree, H | apply same_agree, H].
Qed.
Lemma take_s_ok : forall A U k x d, agree A U d -> U k = false ->
  exists d', take_s k x d = (match A k with Some (VS b) => Some b | _ => x end, d') /\ agree A (more U k (is_s (A k))) d'.
Proof.
  intros A U k x d H F. unfold take_s. pose proof (H k) as Hk. rewrite F in Hk. rewrite Hk.
  destruct (A k) as [[b|s|l|t]|]; cbn [is_s]; eexists; (split; [reflexivity|]); first [apply more_agree, H | apply same_agree, H].
Qed.
Lemma take_as_ok : forall A U k x d, agree A U d -> U k = false ->
  exists d', take_as k x d = (match A k with Some (VAS b) => Some b | _ => x end, d') /\ agree A (more U k (is_as (A k))) d'.
Proof.
  intros A U k x d H F. unfold take_as. pose proof (H k) as Hk. rewrite F in Hk. rewrite Hk.
  destruct (A k) as [[b|s|l|t]|]; cbn [is_as]; eexists; (split; [reflexivity|]); first [apply more_agree, H | apply same_agree, H].
Qed.
Definition vb (v : option val) : bool := match v with Some (VB b) => b | _ => false end.
Definition vs (v : option val) : option string := match v with Some (VS b) => Some b | _ => None end.
Definition vas (v : option val) : option (list string) := match v with Some (VAS b) => Some b | _ => None end.
Definition args_of (A : string -> option val) : iargs :=
  mkIargs (vb (A "ignore-compatible"%string)) (vb (A "ignore-version-limit"%string)) (vs (A "transaction-id"%string)) (vs (A "require-manifest-hash"%string))
    (vs (A "tls-cert"%string)) (vs (A "tls-key"%string)) (vs (A "tls-ca"%string)) (vb (A "tls-no-verify"%string)) (vas (A "http-headers"%string)).
Definition none : string -> bool := fun _ => false.
Definition access_taken (A : string -> option val) (U : string -> bool) : string -> bool :=
  more (more (more (more (more U "tls-cert" (is_s (A "tls-cert"%string))) "tls-key" (is_s (A "tls-key"%string))) "tls-ca" (is_s (A "tls-ca"%string)))
    "tls-no-verify" (is_b (A "tls-no-verify"%string))) "http-headers" (is_as (A "http-headers"%string)).
Definition all_taken (A : string -> option val) : string -> bool :=
  access_taken A (more (more (more (more none "ignore-compatible" (is_b (A "ignore-compatible"%string))) "ignore-version-limit" (is_b (A "ignore-version-limit"%string)))
    "transaction-id" (is_s (A "transaction-id"%string))) "require-manifest-hash" (is_s (A "require-manifest-hash"%string))).
Lemma access_of_ok : forall A U a d, agree A U d -> (forall k, access_key k -> U k = false) ->
  a_tls_cert a = None -> a_tls_key a = None -> a_tls_ca a = None -> a_tls_no_verify a = false -> a_http_headers a = None ->
  exists d', access_of a d = (mkIargs (a_ignore_compatible a) (a_ignore_version_limit a) (a_transaction a) (a_manifest_hash a) (vs (A "tls-cert"%string)) (vs (A "tls-key"%string)) (vs (A "tls-ca"%string)) (vb (A "tls-no-verify"%string)) (vas (A "http-headers"%string)), d') /\
    agree A (access_taken A U) d'.
Proof.
  intros A U a d H F E1 E2 E3 E4 E5. unfold access_of. rewrite E1, E2, E3, E4, E5.
  assert (K : forall k, access_key k -> U k = false) by exact F. unfold access_key in K. cbn [In] in K.
  destruct (take_s_ok A U "tls-cert" None d H) as (d1 & -> & H1); [apply K; auto|].
  destruct (take_s_ok A _ "tls-key" None d1 H1) as (d2 & -> & H2); [unfold more; rewrite K by auto; reflexivity|].
  destruct (take_s_ok A _ "tls-ca" None d2 H2) as (d3 & -> & H3); [unfold more; rewrite K by auto; reflexivity|].
  destruct (take_b_ok A _ "tls-no-verify" false d3 H3) as (d4 & -> & H4); [unfold more; rewrite K by auto; reflexivity|].
  destruct (take_as_ok A _ "http-headers" None d4 H4) as (d5 & -> & H5); [unfold more; rewrite K by auto 8; reflexivity|].
  exists d5. split; [reflexivity|exact H5].
Qed.
Lemma service_ok : forall l, exists d, agree (value_of l) (all_taken (value_of l)) d /\ service_args l = match d with [] => Ok (args_of (value_of l)) | _ => Err end.
Proof.
  intros l. set (A := value_of l). unfold service_args. assert (H : agree A none (dict_of l)) by (intros k; apply dict_of_assoc).
  destruct (take_b_ok A none "ignore-compatible" false _ H eq_refl) as (d1 & -> & H1).
  destruct (take_b_ok A _ "ignore-version-limit" false d1 H1 eq_refl) as (d2 & -> & H2).
  destruct (take_s_ok A _ "transaction-id" None d2 H2 eq_refl) as (d3 & -> & H3).
  destruct (take_s_ok A _ "require-manifest-hash" None d3 H3 eq_refl) as (d4 & -> & H4).
  set (a := mkIargs _ _ _ _ None None None false None).
  destruct (access_of_ok A _ a d4 H4) as (d5 & -> & H5); try reflexivity.
  { intros k [<-|[<-|[<-|[<-|[<-|[]]]]]]; reflexivity. }
  exists d5. split; [exact H5|]. reflexivity.
Qed.
Lemma inspect_ok : forall l, exists d, agree (value_of l) (access_taken (value_of l) none) d /\
  inspect_args l = match d with [] => Ok (mkIargs false false None None (vs (value_of l "tls-cert"%string)) (vs (value_of l "tls-key"%string)) (vs (value_of l "tls-ca"%string)) (vb (value_of l "tls-no-verify"%string)) (vas (value_of l "http-headers"%string))) | _ => Err end.
Proof.
  intros l. set (A := value_of l). unfold inspect_args. assert (H : agree A none (dict_of l)) by (intros k; apply dict_of_assoc).
  destruct (access_of_ok A none iargs0 _ H) as (d5 & -> & H5); try reflexivity. exists d5. split; [exact H5|reflexivity].
Qed.
Lemma agree_nil : forall A U d, agree A U d -> (d = [] <-> forall k v, A k = Some v -> U k = true).
Proof.
  intros A U d H. split.
  - intros -> k v E. specialize (H k). cbn [assoc] in H. destruct (U k); [reflexivity|congruence].
  - intros X. destruct d as [|[k v] d]; [reflexivity|]. exfalso. specialize (H k). cbn [assoc] in H. rewrite String.eqb_refl in H.
    destruct (U k) eqn:E; [discriminate|]. symmetry in H. specialize (X k v H). congruence.
Qed.
(** the options taken are exactly the supported ones *)
Lemma access_taken_spec : forall A U k, access_taken A U k = true <->
  U k = true \/ (k = "tls-cert"%string /\ is_s (A k) = true) \/ (k = "tls-key"%string /\ is_s (A k) = true) \/ (k = "tls-ca"%string /\ is_s (A k) = true) \/
  (k = "tls-no-verify"%string /\ is_b (A k) = true) \/ (k = "http-headers"%string /\ is_as (A k) = true).
Proof.
  intros A U k. unfold access_taken, more. rewrite !orb_true_iff, !andb_true_iff, !String.eqb_eq. split.
  - intros [[[[[H|(-> & H)]|(-> & H)]|(-> & H)]|(-> & H)]|(-> & H)]; auto 10.
  - intros [H|[(-> & H)|[(-> & H)|[(-> & H)|[(-> & H)|(-> & H)]]]]]; auto 10.
Qed.
Lemma all_taken_spec : forall A k, all_taken A k = true <->
  (k = "ignore-compatible"%string /\ is_b (A k) = true) \/ (k = "ignore-version-limit"%string /\ is_b (A k) = true) \/ (k = "transaction-id"%string /\ is_s (A k) = true) \/ (k = "require-manifest-hash"%string /\ is_s (A k) = true) \/
  (k = "tls-cert"%string /\ is_s (A k) = true) \/ (k = "tls-key"%string /\ is_s (A k) = true) \/ (k = "tls-ca"%string /\ is_s (A k) = true) \/
  (k = "tls-no-verify"%string /\ is_b (A k) = true) \/ (k = "http-headers"%string /\ is_as (A k) = true).
Proof.
  intros A k. unfold all_taken. rewrite access_taken_spec. unfold more, none. cbn [orb]. rewrite !orb_true_iff, !andb_true_iff, !String.eqb_eq. split.
  - intros [[[[(-> & H)|(-> & H)]|(-> & H)]|(-> & H)]|H]; auto 10.
  - intros [(-> & H)|[(-> & H)|[(-> & H)|[(-> & H)|H]]]]; auto 10.
Qed.
Lemma or_iff : forall P Q R S : Prop, (P <-> Q) -> (R <-> S) -> (P \/ R <-> Q \/ S).
Proof. tauto. Qed.
Lemma case_b : forall (A : string -> option val) k v c, A k = Some v -> (k = c /\ is_b (A k) = true <-> k = c /\ v = VB (vb (A c))).
Proof.
  intros A k v c E. split; intros (-> & H); (split; [reflexivity|]); rewrite E in *; [destruct v; try discriminate H; reflexivity|]. rewrite H. reflexivity.
Qed.
Lemma case_s : forall (A : string -> option val) k v c, A k = Some v -> (k = c /\ is_s (A k) = true <-> k = c /\ exists s, v = VS s /\ vs (A c) = Some s).
Proof.
  intros A k v c E. split; intros (-> & H); (split; [reflexivity|]); rewrite E in *; [destruct v as [|s| |]; try discriminate H; exists s; split; reflexivity|].
  destruct H as (s & -> & _). reflexivity.
Qed.
Lemma case_as : forall (A : string -> option val) k v c, A k = Some v -> (k = c /\ is_as (A k) = true <-> k = c /\ exists s, v = VAS s /\ vas (A c) = Some s).
Proof.
  intros A k v c E. split; intros (-> & H); (split; [reflexivity|]); rewrite E in *; [destruct v as [| |s|]; try discriminate H; exists s; split; reflexivity|].
  destruct H as (s & -> & _). reflexivity.
Qed.
Lemma taken_honoured : forall A k v, A k = Some v -> (all_taken A k = true <-> honoured (args_of A) k v).
Proof.
  intros A k v E. rewrite all_taken_spec. unfold honoured, args_of. cbn [a_ignore_compatible a_ignore_version_limit a_transaction a_manifest_hash a_tls_cert a_tls_key a_tls_ca a_tls_no_verify a_http_headers].
  repeat (apply or_iff; [first [exact (case_b A k v _ E)|exact (case_s A k v _ E)]|]). exact (case_as A k v _ E).
Qed.
Lemma imp_or : forall P Q R S : Prop, (P -> Q) -> (R -> S) -> (P \/ R -> Q \/ S).
Proof. tauto. Qed.
Lemma honoured_supported : forall a A k v, honoured a k v -> A k = Some v -> all_taken A k = true.
Proof.
  intros a A k v H E. apply all_taken_spec. rewrite E. revert H. unfold honoured.
  repeat (apply imp_or; [intros (-> & H); split; [reflexivity|]; first [subst v; reflexivity | destruct H as (s & -> & _); reflexivity]|]).
  intros (-> & s & -> & _). split; reflexivity.
Qed.

(** nothing that was asked for is ignored *)
Lemma c69_strict_ok : forall l,
  (forall a, service_args l = Ok a ->
     (forall k v, value_of l k = Some v -> honoured a k v) /\
     (value_of l "ignore-compatible" = None -> a_ignore_compatible a = false) /\
     (value_of l "ignore-version-limit" = None -> a_ignore_version_limit a = false) /\
     (value_of l "transaction-id" = None -> a_transaction a = None) /\
     (value_of l "require-manifest-hash" = None -> a_manifest_hash a = None) /\
     (value_of l "tls-cert" = None -> a_tls_cert a = None) /\ (value_of l "tls-key" = None -> a_tls_key a = None) /\ (value_of l "tls-ca" = None -> a_tls_ca a = None) /\
     (value_of l "tls-no-verify" = None -> a_tls_no_verify a = false) /\ (value_of l "http-headers" = None -> a_http_headers a = None)) /\
  (service_args l = Err <-> exists k v, value_of l k = Some v /\ ~ supported k v) /\ service_args l <> Abort.
Proof.
  intros l. destruct (service_ok l) as (d & H & E). rewrite E. pose proof (agree_nil _ _ _ H) as N. destruct d as [|e d].
  - pose proof (proj1 N eq_refl) as T. assert (HH : forall k v, value_of l k = Some v -> honoured (args_of (value_of l)) k v) by (intros k v Hv; apply taken_honoured; [exact Hv|exact (T k v Hv)]).
    split; [|split; [|discriminate]].
    + intros a Ha. apply Ok_inj in Ha. subst a. split; [exact HH|]. unfold args_of. cbn. repeat split; intros ->; reflexivity.
    + split; [discriminate|]. intros (k & v & Hv & Hn). exfalso. apply Hn. exists (args_of (value_of l)). auto.
  - split; [discriminate|]. split; [|discriminate]. split; [|reflexivity]. intros _.
    destruct e as [k v]. exists k, v. pose proof (H k) as Hk. cbn [assoc] in Hk. rewrite String.eqb_refl in Hk. destruct (all_taken (value_of l) k) eqn:Et; [discriminate|]. split; [congruence|].
    intros (a & Ha). pose proof (honoured_supported a (value_of l) k v Ha (eq_sym Hk)). congruence.
Qed.
Lemma c69_inspect_args_ok : forall l,
  (forall a, inspect_args l = Ok a -> forall k v, value_of l k = Some v -> access_key k /\ honoured a k v) /\
  (inspect_args l = Err <-> exists k v, value_of l k = Some v /\ ~ (access_key k /\ supported k v)) /\ inspect_args l <> Abort.
Proof.
  intros l. destruct (inspect_ok l) as (d & H & E). rewrite E. pose proof (agree_nil _ _ _ H) as N.
  assert (AK : forall k, access_taken (value_of l) none k = true -> access_key k /\ all_taken (value_of l) k = true).
  { intros k Hk. apply access_taken_spec in Hk. rewrite all_taken_spec. unfold access_key, none in *. cbn [In]. destruct Hk as [Hk|Hk]; [discriminate|].
    split; [|right; right; right; right; exact Hk]. destruct Hk as [(-> & _)|[(-> & _)|[(-> & _)|[(-> & _)|(-> & _)]]]]; auto 6. }
  assert (KA : forall k, access_key k -> all_taken (value_of l) k = true -> access_taken (value_of l) none k = true).
  { intros k Hk Ht. apply all_taken_spec in Ht. apply access_taken_spec. 
    destruct Ht as [(-> & _)|[(-> & _)|[(-> & _)|[(-> & _)|Ht]]]]; [exfalso| exfalso| exfalso| exfalso|right; exact Ht]; destruct Hk as [Hk|[Hk|[Hk|[Hk|[Hk|[]]]]]]; discriminate Hk. }
  destruct d as [|e d].
  - pose proof (proj1 N eq_refl) as T. split; [|split; [|discriminate]].
    + intros a Ha k v Hv. apply Ok_inj in Ha. subst a. destruct (AK k (T k v Hv)) as (K1 & K2). split; [exact K1|]. apply (taken_honoured _ _ _ Hv) in K2. clear - K1 K2.
      unfold honoured in *. cbn [args_of a_ignore_compatible a_ignore_version_limit a_transaction a_manifest_hash a_tls_cert a_tls_key a_tls_ca a_tls_no_verify a_http_headers] in *.
      destruct K2 as [(-> & _)|[(-> & _)|[(-> & _)|[(-> & _)|K2]]]]; [exfalso| exfalso| exfalso| exfalso|right; right; right; right; exact K2]; destruct K1 as [Hk|[Hk|[Hk|[Hk|[Hk|[]]]]]]; discriminate Hk.
    + split; [discriminate|]. intros (k & v & Hv & Hn). exfalso. apply Hn. destruct (AK k (T k v Hv)) as (K1 & K2). split; [exact K1|]. exists (args_of (value_of l)). now apply taken_honoured.
  - split; [discriminate|]. split; [|discriminate]. split; [|reflexivity]. intros _.
    destruct e as [k v]. exists k, v. pose proof (H k) as Hk. cbn [assoc] in Hk. rewrite String.eqb_refl in Hk. destruct (access_taken (value_of l) none k) eqn:Et; [discriminate|]. split; [congruence|].
    intros (Ha & a & Hs). pose proof (honoured_supported a (value_of l) k v Hs (eq_sym Hk)) as X. pose proof (KA k Ha X). congruence.
Qed.

Lemma c69_roundtrip_ok : forall a, service_args (client_dict a) = Ok a.
Proof.
  intros [ic iv tx mh ce ke ca nv hh]. destruct tx, mh, ce, ke, ca, nv, hh; reflexivity.
Qed.

(** ** exit codes *)
Definition now (w : world) (s : step) (i : nat) : list event :=
  match s with SDispatch j n => if Nat.eqb j i then match w_clients w i with CWaiting _ q => firstn n q | _ => [] end else [] | _ => [] end.
Lemma exec_snoc : forall l s w w', exec (l ++ [s]) w = Some w' -> exists w1, exec l w = Some w1 /\ do_step w1 s = Some w'.
Proof.
  induction l as [|x l IH]; intros s w w' H; cbn [app exec] in H.
  - exists w. split; [reflexivity|]. destruct (do_step w s); [exact H|discriminate].
  - cbn [exec]. destruct (do_step w x) as [w1|]; [|discriminate]. exact (IH s w1 w' H).
Qed.
Lemma dispatched_snoc : forall l s w w1 i, exec l w = Some w1 -> dispatched (l ++ [s]) w i = dispatched l w i ++ now w1 s i.
Proof.
  induction l as [|x l IH]; intros s w w1 i H; cbn [app exec dispatched] in *.
  - apply Some_inj in H. subst w1. unfold now. destruct (do_step w s); now rewrite app_nil_r.
  - destruct (do_step w x) as [w2|]; [|discriminate]. rewrite (IH s w2 w1 i H). now rewrite app_assoc.
Qed.
Definition telling (e : event) : Prop := e <> EvChanged.
Definition quiet (l : list event) : Prop := Forall (fun e => e = EvChanged) l.
Definition decides (E : list event) (c : Z) : Prop := exists E1 e E2, E = E1 ++ e :: E2 /\ tells e c /\ quiet E2.
Definition good_result (w : world) (e : event) : Prop := match e with EvCompleted o r => w_results w o = Some r /\ (r = 0 \/ r = 1)%Z | _ => True end.
(** dispatching a batch of good events *)
Lemma batch_ok : forall w l st b, Forall (good_result w) l ->
  (quiet l /\ fold_left on_event l (st, b) = (st, b)) \/ (exists c, decides l c /\ fold_left on_event l (st, b) = (c, true)).
Proof.
  intros w l. induction l as [|e l IH] using rev_ind; intros st b H; [left; split; [constructor|reflexivity]|].
  apply Forall_app in H as (H1 & H2). inversion H2 as [|? ? H3 _]; subst. rewrite fold_left_app. cbn [fold_left].
  assert (D : forall c, tells e c -> on_event (fold_left on_event l (st, b)) e = (c, true) -> (quiet (l ++ [e]) /\ on_event (fold_left on_event l (st, b)) e = (st, b)) \/ (exists c, decides (l ++ [e]) c /\ on_event (fold_left on_event l (st, b)) e = (c, true))).
  { intros c T X. right. exists c. split; [exists l, e, []; split; [reflexivity|]; split; [exact T|constructor]|exact X]. }
  destruct e as [| |o r|]; [|apply (D 2%Z); reflexivity| |apply (D 3%Z); reflexivity].
  - cbn [on_event]. destruct (IH st b H1) as [(Q & ->)|(c & (E1 & e & E2 & -> & T & Q) & ->)].
    + left. split; [apply Forall_app; split; [exact Q|repeat constructor]|reflexivity].
    + right. exists c. split; [|reflexivity]. exists E1, e, (E2 ++ [EvChanged]). split; [now rewrite <- app_assoc|]. split; [exact T|]. apply Forall_app. split; [exact Q|repeat constructor].
  - apply (D r); [reflexivity|]. cbn [on_event]. destruct H3 as (_ & [-> | ->]); cbn; rewrite orb_true_r; reflexivity.
Qed.

Definition cinv (w : world) (i : nat) (E : list event) : Prop :=
  Forall (good_result w) E /\
  match w_clients w i with
  | CNone => E = [] /\ w_used w i = None /\ w_results w i = None
  | CConnected q => E = [] /\ w_used w i = None /\ w_results w i = None /\ Forall (good_result w) q
  | CWaiting st q => quiet E /\ w_used w i <> None /\ Forall (good_result w) q /\
      (w_busy w = Some i \/ exists r, w_results w i = Some r /\ In (EvCompleted i r) q)
  | CDone c => (w_used w i = None /\ w_results w i = None /\ E = [] /\ c = 2%Z) \/ (w_used w i <> None /\ decides E c)
  end.
Definition winv (w : world) : Prop := forall i, w_busy w = Some i -> w_used w i <> None /\ w_results w i = None.
Lemma upd_same : forall {A} (f : nat -> A) i v, upd_nat f i v i = v.
Proof. intros. unfold upd_nat. now rewrite Nat.eqb_refl. Qed.
Lemma upd_other : forall {A} (f : nat -> A) i j v, j <> i -> upd_nat f i v j = f j.
Proof. intros A f i j v H. unfold upd_nat. destruct (Nat.eqb_spec j i); [contradiction|reflexivity]. Qed.

Lemma step_inv : forall w s w' E, winv w -> (forall i, cinv w i (E i)) -> do_step w s = Some w' -> winv w' /\ forall i, cinv w' i (E i ++ now w s i).
Proof.
  intros w s w' E W C H.
  assert (SETC : forall j c, (forall i, i <> j -> now w s i = []) -> cinv (set_client w j c) j (E j ++ now w s j) -> w' = set_client w j c -> winv w' /\ forall i, cinv w' i (E i ++ now w s i)).
  { intros j c Hnow Hj ->. split; [exact W|]. intros i. destruct (Nat.eq_dec i j) as [->|Hne]; [exact Hj|]. rewrite (Hnow i Hne), app_nil_r. specialize (C i). unfold cinv, set_client in *. cbn [w_clients w_used w_results w_busy].
    rewrite upd_other by exact Hne. exact C. }
  destruct s as [i|i d| |r|i|i|i n]; cbn [do_step] in H.
  - destruct (w_clients w i) eqn:Ec; try discriminate. apply Some_inj in H. apply (SETC i (CConnected [])); [reflexivity| |congruence].
    pose proof (C i) as Ci. unfold cinv in *. rewrite Ec in Ci. cbn [now]. rewrite app_nil_r. unfold set_client. cbn [w_clients w_used w_results w_busy]. rewrite upd_same. destruct Ci as (C1 & C2 & C3 & C4). auto.
  - destruct (w_clients w i) as [|q| |] eqn:Ec; try discriminate. pose proof (C i) as Ci. unfold cinv in Ci. rewrite Ec in Ci. destruct Ci as (C1 & C2 & C3 & C4 & C5).
    assert (REF : w' = set_client w i (CDone 2) -> winv w' /\ forall j, cinv w' j (E j ++ now w (SCall i d) j)).
    { intros Hw. apply (SETC i (CDone 2)); [reflexivity| |exact Hw]. cbn [now]. rewrite app_nil_r. unfold cinv, set_client. cbn [w_clients w_used w_results w_busy]. rewrite upd_same. split; [exact C1|]. left. auto. }
    destruct (w_busy w) as [b|] eqn:Eb; [apply REF; congruence|]. destruct (service_args d) as [a| |]; try (apply REF; congruence). clear REF SETC.
    apply Some_inj in H. subst w'. split.
    + intros j Hj. cbn [w_busy w_used w_results] in *. injection Hj as <-. rewrite upd_same. split; [discriminate|exact C4].
    + intros j. cbn [now]. rewrite app_nil_r. unfold cinv. cbn [w_clients w_used w_results w_busy]. destruct (Nat.eq_dec j i) as [->|Hne].
      * rewrite !upd_same. rewrite C2. split; [constructor|]. split; [constructor|]. split; [discriminate|]. split; [exact C5|]. left. reflexivity.
      * rewrite !upd_other by exact Hne. pose proof (C j) as Cj. unfold cinv in Cj. rewrite Eb in Cj. destruct Cj as (D1 & D2). split; [exact D1|].
        destruct (w_clients w j); auto. destruct D2 as (D2 & D3 & D4 & [D5|D5]); [discriminate|]. auto 6.
  - apply Some_inj in H. subst w'. split; [exact W|]. intros j. cbn [now]. rewrite app_nil_r. pose proof (C j) as Cj. unfold cinv in *. cbn [w_clients w_used w_results w_busy broadcast]. destruct Cj as (D1 & D2). split; [exact D1|].
    unfold broadcast. destruct (w_clients w j) as [|q|st q|c]; cbn [enqueue]; auto.
    + destruct D2 as (D2 & D3 & D4 & D5). repeat split; auto. apply Forall_app. split; [exact D5|repeat constructor].
    + destruct D2 as (D2 & D3 & D4 & D5). repeat split; auto. { apply Forall_app. split; [exact D4|repeat constructor]. }
      destruct D5 as [D5|(r & D5 & D6)]; [left; exact D5|right]. exists r. split; [exact D5|]. apply in_or_app. left. exact D6.
  - destruct (w_busy w) as [b|] eqn:Eb; [|discriminate]. destruct (Z.eqb r 0 || Z.eqb r 1)%bool eqn:Er; [|discriminate]. apply Some_inj in H. subst w'.
    destruct (W b Eb) as (Wu & Wr). assert (R01 : (r = 0 \/ r = 1)%Z). { apply orb_true_iff in Er as [Er|Er]; apply Z.eqb_eq in Er; auto. }
    assert (MONO : forall e, good_result w e -> good_result (mkWorld (broadcast (EvCompleted b r) (w_clients w)) None (w_used w) (upd_nat (w_results w) b (Some r))) e).
    { intros [| |o x|] Hg; auto. destruct Hg as (G1 & G2). cbn. split; [|exact G2]. destruct (Nat.eq_dec o b) as [->|Hne]; [congruence|]. rewrite upd_other by exact Hne. exact G1. }
    assert (NEW : good_result (mkWorld (broadcast (EvCompleted b r) (w_clients w)) None (w_used w) (upd_nat (w_results w) b (Some r))) (EvCompleted b r)).
    { cbn. rewrite upd_same. auto. }
    split; [intros j Hj; discriminate Hj|]. intros j. cbn [now]. rewrite app_nil_r. pose proof (C j) as Cj. unfold cinv in *. destruct Cj as (D1 & D2). split; [eapply Forall_impl; [exact MONO|exact D1]|].
    cbn [w_clients w_used w_results w_busy]. unfold broadcast. 
    destruct (w_clients w j) as [|q|st q|c] eqn:Ec; cbn [enqueue].
    + destruct D2 as (D2 & D3 & D4). destruct (Nat.eq_dec j b) as [->|Hne]; [congruence|]. rewrite upd_other by exact Hne. auto.
    + destruct D2 as (D2 & D3 & D4 & D5). destruct (Nat.eq_dec j b) as [->|Hne]; [congruence|]. rewrite upd_other by exact Hne. repeat split; auto. apply Forall_app. split; [eapply Forall_impl; [exact MONO|exact D5]|constructor; [exact NEW|constructor]].
    + destruct D2 as (D2 & D3 & D4 & D5). split; [exact D2|]. split; [exact D3|]. split; [apply Forall_app; split; [eapply Forall_impl; [exact MONO|exact D4]|constructor; [exact NEW|constructor]]|].
      right. destruct (Nat.eq_dec j b) as [->|Hne].
      * exists r. rewrite upd_same. split; [reflexivity|]. apply in_or_app. right. left. reflexivity.
      * rewrite upd_other by exact Hne. destruct D5 as [D5|(x & D5 & D6)]; [congruence|]. exists x. split; [exact D5|]. apply in_or_app. left. exact D6.
    + destruct D2 as [(D2 & D3 & D4)|D2]; [left|right; exact D2]. destruct (Nat.eq_dec j b) as [->|Hne]; [congruence|]. rewrite upd_other by exact Hne. auto.
  - destruct (w_clients w i) as [|q|st q|c] eqn:Ec; try discriminate; apply Some_inj in H; (eapply SETC; [reflexivity| |symmetry; exact H]); pose proof (C i) as Ci; unfold cinv in *; rewrite Ec in Ci; cbn [now]; rewrite app_nil_r; unfold set_client; cbn [w_clients w_used w_results w_busy enqueue]; rewrite upd_same.
    + destruct Ci as (C1 & C2 & C3 & C4 & C5). repeat split; auto. apply Forall_app. split; [exact C5|repeat constructor].
    + destruct Ci as (C1 & C2 & C3 & C4 & C5). repeat split; auto. { apply Forall_app. split; [exact C4|repeat constructor]. }
      destruct C5 as [C5|(r & C5 & C6)]; [left; exact C5|right]. exists r. split; [exact C5|]. apply in_or_app. left. exact C6.
  - destruct (w_clients w i) as [|q|st q|c] eqn:Ec; try discriminate; apply Some_inj in H; (eapply SETC; [reflexivity| |symmetry; exact H]); pose proof (C i) as Ci; unfold cinv in *; rewrite Ec in Ci; cbn [now]; rewrite app_nil_r; unfold set_client; cbn [w_clients w_used w_results w_busy enqueue]; rewrite upd_same.
    + destruct Ci as (C1 & C2 & C3 & C4 & C5). repeat split; auto. apply Forall_app. split; [exact C5|repeat constructor].
    + destruct Ci as (C1 & C2 & C3 & C4 & C5). repeat split; auto. { apply Forall_app. split; [exact C4|repeat constructor]. }
      destruct C5 as [C5|(r & C5 & C6)]; [left; exact C5|right]. exists r. split; [exact C5|]. apply in_or_app. left. exact C6.
  - destruct (w_clients w i) as [|q|st q|c] eqn:Ec; try discriminate. pose proof (C i) as Ci. unfold cinv in Ci. rewrite Ec in Ci. destruct Ci as (C1 & C2 & C3 & C4 & C5).
    rewrite <- (firstn_skipn n q) in C4. apply Forall_app in C4 as (C4a & C4b).
    destruct (on_batch st (firstn n q)) as [st' quit] eqn:Eq. apply Some_inj in H.
    assert (NOW : now w (SDispatch i n) i = firstn n q) by (cbn [now]; now rewrite Nat.eqb_refl, Ec).
    apply (SETC i (if quit then CDone st' else CWaiting st' (skipn n q))); [|  |symmetry; exact H].
    { intros j Hj. cbn [now]. destruct (Nat.eqb_spec i j); [congruence|reflexivity]. }
    rewrite NOW. unfold cinv, set_client. cbn [w_clients w_used w_results w_busy]. rewrite upd_same. split; [apply Forall_app; split; [exact C1|exact C4a]|].
    unfold on_batch in Eq. destruct (batch_ok w (firstn n q) st false C4a) as [(Q & X)|(c & D & X)]; rewrite X in Eq; apply pair_equal_spec in Eq as [<- <-].
    + split; [apply Forall_app; split; [exact C2|exact Q]|]. split; [exact C3|]. split; [exact C4b|]. destruct C5 as [C5|(r & C5 & C6)]; [left; exact C5|right]. exists r. split; [exact C5|].
      rewrite <- (firstn_skipn n q) in C6. apply in_app_or in C6 as [C6|C6]; [|exact C6]. unfold quiet in Q. rewrite Forall_forall in Q. specialize (Q _ C6). discriminate Q.
    + right. split; [exact C3|]. destruct D as (E1 & e & E2 & -> & T & Q). exists (E i ++ E1), e, E2. split; [now rewrite <- app_assoc|]. auto.
Qed.
Lemma exec_inv : forall l w, exec l world0 = Some w -> winv w /\ forall i, cinv w i (dispatched l world0 i).
Proof.
  intros l. induction l as [|s l IH] using rev_ind; intros w H.
  - apply Some_inj in H. subst w. split; [intros i Hi; discriminate Hi|]. intros i. split; [constructor|]. cbn. auto.
  - apply exec_snoc in H as (w1 & H1 & H2). destruct (IH w1 H1) as (W & C). destruct (step_inv w1 s w (dispatched l world0) W C H2) as (W' & C'). split; [exact W'|].
    intros i. rewrite (dispatched_snoc l s world0 w1 i H1). apply C'.
Qed.

Lemma c69_exit_ok : forall l w i c, exec l world0 = Some w -> w_clients w i = CDone c ->
  ((w_used w i = None /\ dispatched l world0 i = [] /\ c = 2%Z) \/
   (w_used w i <> None /\ exists before e after, dispatched l world0 i = before ++ e :: after /\ tells e c /\ Forall (fun x => x = EvChanged) after)) /\
  (c = 0%Z -> exists o, In (EvCompleted o 0) (dispatched l world0 i) /\ w_results w o = Some 0%Z) /\
  (w_used w i <> None -> (forall e, In e (dispatched l world0 i) -> e = EvChanged \/ exists r, e = EvCompleted i r) -> w_results w i = Some c) /\
  (forall o r, In (EvCompleted o r) (dispatched l world0 i) -> w_results w o = Some r).
Proof.
  intros l w i c H D. destruct (exec_inv l w H) as (_ & C). specialize (C i). unfold cinv in C. rewrite D in C. destruct C as (G & C). rewrite Forall_forall in G.
  split; [|split; [|split]].
  - destruct C as [(C1 & C2 & C3 & C4)|(C1 & C2)]; [left; auto|right]. split; [exact C1|exact C2].
  - intros ->. destruct C as [(_ & _ & _ & C4)|(_ & E1 & e & E2 & Ed & T & _)]; [discriminate|]. assert (In e (dispatched l world0 i)) by (rewrite Ed; apply in_or_app; right; left; reflexivity).
    destruct e as [| |o r|]; cbn [tells] in T; try contradiction; try discriminate. subst r. exists o. split; [assumption|]. exact (proj1 (G _ H0)).
  - intros U X. destruct C as [(C1 & _)|(_ & E1 & e & E2 & Ed & T & _)]; [contradiction|]. assert (I0 : In e (dispatched l world0 i)) by (rewrite Ed; apply in_or_app; right; left; reflexivity).
    destruct (X e I0) as [->|(r & ->)]; [destruct T|]. cbn [tells] in T. subst r. exact (proj1 (G _ I0)).
  - intros o r X. exact (proj1 (G _ X)).
Qed.

Lemma c69_wakes_ok : forall l w i st q, exec l world0 = Some w -> w_clients w i = CWaiting st q ->
  (w_results w i = None <-> w_busy w = Some i) /\
  (forall r, w_results w i = Some r -> exists c w', do_step w (SDispatch i (List.length q)) = Some w' /\ w_clients w' i = CDone c).
Proof.
  intros l w i st q H D. destruct (exec_inv l w H) as (W & C). specialize (C i). unfold cinv in C. rewrite D in C. destruct C as (_ & Q & U & G & C). split.
  - split; [intros N; destruct C as [C|(r & C & _)]; [exact C|congruence]|]. intros B. exact (proj2 (W i B)).
  - intros r R. destruct C as [C|(r' & C & Hin)]; [destruct (W i C); congruence|]. cbn [do_step]. rewrite D, firstn_all. unfold on_batch.
    destruct (batch_ok w q st false G) as [(Q' & _)|(c & _ & X)].
    + unfold quiet in Q'. rewrite Forall_forall in Q'. specialize (Q' _ Hin). discriminate Q'.
    + rewrite X. exists c. eexists. split; [reflexivity|]. unfold set_client. cbn [w_clients]. apply upd_same.
Qed.

(** the installation runs with exactly the options of the client *)
Lemma c69_used_ok : forall l w i, exec l world0 = Some w ->
  (forall a, w_used w i = Some a -> exists d, In (SCall i d) l /\ service_args d = Ok a) /\
  (forall a, (forall d, In (SCall i d) l -> d = client_dict a) -> w_used w i = None \/ w_used w i = Some a) /\
  (w_results w i <> None -> w_used w i <> None).
Proof.
  intros l w i H.
  assert (X : (forall a, w_used w i = Some a -> exists d, In (SCall i d) l /\ service_args d = Ok a) /\ (w_results w i <> None -> w_used w i <> None)).
  { revert w H. induction l as [|s l IH] using rev_ind; intros w H; [apply Some_inj in H; subst w; split; [intros a Ha; discriminate Ha|intros Ha; exfalso; now apply Ha]|].
    pose proof (exec_snoc _ _ _ _ H) as (w1 & H1 & H2). destruct (IH w1 H1) as (I1 & I2). destruct (exec_inv l w1 H1) as (W & _).
    assert (S1 : w_used w i = w_used w1 i -> forall a, w_used w i = Some a -> exists d, In (SCall i d) (l ++ [s]) /\ service_args d = Ok a).
    { intros -> a Ha. destruct (I1 a Ha) as (d & Hd & Hs). exists d. split; [apply in_or_app; left; exact Hd|exact Hs]. }
    destruct s as [j|j d| |r|j|j|j n]; cbn [do_step] in H2.
    - destruct (w_clients w1 j); try discriminate. apply Some_inj in H2. subst w. split; [apply S1; reflexivity|exact I2].
    - destruct (w_clients w1 j) as [|q| |]; try discriminate. destruct (w_busy w1) as [b|]; [apply Some_inj in H2; subst w; split; [apply S1; reflexivity|exact I2]|].
      destruct (service_args d) as [a0| |] eqn:Es; apply Some_inj in H2; subst w; [|split; [apply S1; reflexivity|exact I2]..].
      cbn [w_used w_results] in *. destruct (Nat.eq_dec i j) as [->|Hne].
      + split; [|rewrite upd_same; discriminate]. intros a Ha. rewrite upd_same in Ha. apply Some_inj in Ha. subst a0. exists d. split; [apply in_or_app; right; left; reflexivity|exact Es].
      + split; [apply S1; apply upd_other; exact Hne|]. intros R. rewrite upd_other by exact Hne. apply I2, R.
    - apply Some_inj in H2. subst w. split; [apply S1; reflexivity|exact I2].
    - destruct (w_busy w1) as [b|] eqn:Eb; [|discriminate]. destruct (Z.eqb r 0 || Z.eqb r 1)%bool; [|discriminate]. apply Some_inj in H2. subst w. split; [apply S1; reflexivity|]. cbn [w_used w_results].
      intros R. destruct (Nat.eq_dec i b) as [->|Hne]; [exact (proj1 (W b Eb))|]. rewrite upd_other in R by exact Hne. exact (I2 R).
    - destruct (w_clients w1 j); try discriminate; apply Some_inj in H2; subst w; (split; [apply S1; reflexivity|exact I2]).
    - destruct (w_clients w1 j); try discriminate; apply Some_inj in H2; subst w; (split; [apply S1; reflexivity|exact I2]).
    - destruct (w_clients w1 j); try discriminate; destruct (on_batch _ _); apply Some_inj in H2; subst w; (split; [apply S1; reflexivity|exact I2]). }
  destruct X as (X1 & X2). split; [exact X1|]. split; [|exact X2]. intros a Ha. destruct (w_used w i) as [a'|]; [right|left; reflexivity].
  destruct (X1 a' eq_refl) as (d & Hd & Hs). rewrite (Ha d Hd), c69_roundtrip_ok in Hs. congruence.
Qed.

(** a Completed signal of an earlier installation ends a client early, or replaces its own result *)
Lemma c69_early_refuted : exists l w, exec l world0 = Some w /\ w_clients w 1 = CDone 0 /\ w_busy w = Some 1 /\ w_used w 1 = Some iargs0 /\ w_results w 1 = None.
Proof.
  exists [SConnect 0; SCall 0 (client_dict iargs0); SConnect 1; SFinish 0; SCall 1 (client_dict iargs0); SDispatch 1 1]. eexists. cbv. auto.
Qed.
Lemma c69_late_refuted : exists l w, exec l world0 = Some w /\ w_clients w 0 = CDone 0 /\ w_results w 0 = Some 1%Z.
Proof.
  exists [SConnect 0; SCall 0 (client_dict iargs0); SFinish 1; SConnect 1; SCall 1 (client_dict iargs0); SFinish 0; SDispatch 0 2]. eexists. cbv. auto.
Qed.

(** ** the path *)
Lemma c69_path_ok : forall cwd from_uri exists_ path,
  (forall p, resolve_bundle cwd from_uri exists_ path = Ok p ->
     (parse_scheme path = None /\ exists_ p = true /\ (is_absolute cwd = true -> is_absolute p = true) /\ (is_absolute path = true -> p = path)) \/
     (parse_scheme path = Some "file"%string /\ exists_ p = true /\ from_uri path = Some (p, None)) \/
     (exists sch, parse_scheme path = Some sch /\ sch <> "file"%string /\ p = path)) /\
  (is_absolute path = true -> exists_ path = true -> resolve_bundle cwd from_uri exists_ path = Ok path) /\
  (is_absolute path = false -> no_char ":" path = true -> exists_ (if String.eqb cwd "/" then String "/" path else cwd ++ "/" ++ path)%string = true ->
     resolve_bundle cwd from_uri exists_ path = Ok (if String.eqb cwd "/" then String "/" path else cwd ++ "/" ++ path)%string) /\
  resolve_bundle cwd from_uri exists_ path <> Abort.
Proof.
  intros cwd fu ex path. assert (AB : is_absolute path = true -> parse_scheme path = None).
  { destruct path as [|c r]; [discriminate|]. cbn [is_absolute parse_scheme]. intros E. apply Ascii.eqb_eq in E. subst c. reflexivity. }
  unfold resolve_bundle. split; [|split; [|split]].
  - intros p. destruct (parse_scheme path) as [sch|] eqn:Es.
    + destruct (String.eqb_spec sch "file") as [->|Hne].
      * destruct (fu path) as [[q [h|]]|]; try discriminate. destruct (ex q) eqn:Ex; [|discriminate]. intros E. apply Ok_inj in E. subst q. right. left. auto.
      * intros E. apply Ok_inj in E. subst p. right. right. exists sch. auto.
    + set (q := if is_absolute path then path else _). destruct (ex q) eqn:Ex; [|discriminate]. intros E. apply Ok_inj in E. subst p. left. split; [reflexivity|]. split; [exact Ex|]. subst q.
      destruct (is_absolute path) eqn:Ea; [auto|]. split; [|discriminate]. intros Hc. destruct (String.eqb cwd "/"); [reflexivity|]. destruct cwd as [|c cwd]; [discriminate|exact Hc].
  - intros Ha He. rewrite (AB Ha), Ha, He. reflexivity.
  - intros Ha Hn He. assert (N : parse_scheme path = None).
    { destruct path as [|c r]; [reflexivity|]. cbn [parse_scheme]. destruct (is_alpha c); [|reflexivity]. unfold no_char in Hn. cbn [all_chars] in Hn. apply andb_true_iff in Hn as (_ & Hn).
      assert (S0 : scheme_rest r = None); [|now rewrite S0]. clear - Hn. induction r as [|c r IH]; [reflexivity|]. cbn [all_chars] in Hn. apply andb_true_iff in Hn as (H1 & H2). cbn [scheme_rest]. apply negb_true_iff in H1. rewrite H1. destruct (scheme_char c); [|reflexivity]. now rewrite (IH H2). }
    rewrite N, Ha, He. reflexivity.
  - destruct (parse_scheme path) as [sch|]; [destruct (String.eqb sch "file")|].
    + destruct (fu path) as [[q [h|]]|]; try discriminate. destruct (ex q); discriminate.
    + discriminate.
    + match goal with |- (if ?b then _ else _) <> _ => destruct b end; discriminate.
Qed.
(** an existing relative file name which looks like a URL is passed on unchanged *)
Lemma c69_path_refuted : exists cwd from_uri exists_ path,
  is_absolute cwd = true /\ exists_ (cwd ++ "/" ++ path)%string = true /\ resolve_bundle cwd from_uri exists_ path = Ok path /\ is_absolute path = false.
Proof.
  exists "/tmp"%string, (fun _ => None), (fun p => String.eqb p "/tmp/update:1.raucb"), "update:1.raucb"%string. repeat split; reflexivity.
Qed.

(** ** InspectBundle *)
Lemma assoc_gopt : forall k k' v r, assoc k (gopt k' v ++ r) = if String.eqb k' k then match v with Some s => Some (GS s) | None => assoc k r end else assoc k r.
Proof. intros k k' [v|] r; cbn [gopt app assoc]; destruct (String.eqb k' k); reflexivity. Qed.
Lemma assoc_gstrv : forall k k' v r, assoc k (gstrv k' v ++ r) = if String.eqb k' k then match v with [] => assoc k r | _ => Some (GL v) end else assoc k r.
Proof. intros k k' [|x v] r; cbn [gstrv app assoc]; destruct (String.eqb k' k); reflexivity. Qed.
Lemma assoc_end : forall k k' v, assoc k (gstrv k' v) = if String.eqb k' k then list_opt v else None.
Proof. intros k k' [|x v]; cbn [gstrv app assoc list_opt]; destruct (String.eqb k' k); reflexivity. Qed.
Lemma assoc_size : forall k (b : bool) n (r : list (string * gv)), assoc k ((if b then [] else [("size"%string, GT n)]) ++ r) = if String.eqb "size" k then (if b then assoc k r else Some (GT n)) else assoc k r.
Proof. intros k b n r. destruct b; cbn [app assoc]; destruct (String.eqb "size" k); reflexivity. Qed.
Lemma assoc_one : forall k k' (v : gv) (r : list (string * gv)), assoc k ([(k', v)] ++ r) = if String.eqb k' k then Some v else assoc k r.
Proof. reflexivity. Qed.
Lemma some_gv : forall (v : option gv), match v with Some x => Some x | None => None end = v.
Proof. intros [x|]; reflexivity. Qed.
Lemma flags_ok : forall a b c h, h = flags_of [(a, "pre-install"); (b, "install"); (c, "post-install")]%string ->
  NoDup h /\ (In "pre-install"%string h <-> a = true) /\ (In "install"%string h <-> b = true) /\ (In "post-install"%string h <-> c = true) /\ forall x, In x h -> In x ["pre-install"; "install"; "post-install"]%string.
Proof.
  intros a b c h ->. destruct a, b, c; cbn; (split; [repeat constructor; cbn; intuition discriminate|]); intuition (try discriminate; auto).
Qed.
Ltac look := repeat first [rewrite assoc_one | rewrite assoc_gopt | rewrite assoc_size | rewrite assoc_gstrv | rewrite assoc_end];
  repeat match goal with |- context [String.eqb ?a ?b] => let e := eval vm_compute in (String.eqb a b) in change (String.eqb a b) with e; cbv beta iota end; rewrite ?some_gv.
Lemma image_says_ok : forall i, image_says i (image_dict i).
Proof.
  intros i. unfold image_says, image_dict. cbn [at_path].
  split; [look; reflexivity|]. do 5 (split; [look; match goal with |- context [str_opt ?v] => destruct v; reflexivity end|]).
  split; [|split; [|split; [|split; [|split]]]].
  - intros H. look. destruct (Z.eqb_spec (im_size i) 0) as [E|E]; [lia|]. rewrite Z.mod_small; [reflexivity|]. lia.
  - intros ->. look. reflexivity.
  - eexists. split; [look; reflexivity|]. apply (flags_ok (im_pre i) (im_install i) (im_post i)). reflexivity.
  - look. destruct (im_adaptive i); reflexivity.
  - look. destruct (im_convert i); reflexivity.
  - look. reflexivity.
Qed.
Lemma assoc_gopt_end : forall k k' v, assoc k (gopt k' v) = if String.eqb k' k then str_opt v else None.
Proof. intros k k' [x|]; cbn [gopt assoc str_opt]; destruct (String.eqb k' k); reflexivity. Qed.
Lemma assoc_vsize_end : forall k (b : bool) n, assoc k (if b then [] else [("verity-size"%string, GT n)]) = if String.eqb "verity-size" k then (if b then None else Some (GT n)) else None.
Proof. intros k b n. destruct b; cbn [assoc]; destruct (String.eqb "verity-size" k); reflexivity. Qed.
Lemma assoc_hooks : forall k (o : option string) (f : string -> gv) (r : list (string * gv)), assoc k (match o with Some h => [("hooks"%string, f h)] | None => [] end ++ r) = if String.eqb "hooks" k then match o with Some h => Some (f h) | None => assoc k r end else assoc k r.
Proof. intros k [h|] f r; cbn [app assoc]; destruct (String.eqb "hooks" k); reflexivity. Qed.
Lemma assoc_handler : forall k (o : option string) (f : string -> gv) (r : list (string * gv)), assoc k (match o with Some h => [("handler"%string, f h)] | None => [] end ++ r) = if String.eqb "handler" k then match o with Some h => Some (f h) | None => assoc k r end else assoc k r.
Proof. intros k [h|] f r; cbn [app assoc]; destruct (String.eqb "handler" k); reflexivity. Qed.
Lemma assoc_two : forall k k1 (v1 : gv) k2 v2 (r : list (string * gv)), assoc k ([(k1, v1); (k2, v2)] ++ r) = if String.eqb k1 k then Some v1 else if String.eqb k2 k then Some v2 else assoc k r.
Proof. reflexivity. Qed.
Lemma assoc_two_end : forall k k1 (v1 : gv) k2 v2, assoc k [(k1, v1); (k2, v2)] = if String.eqb k1 k then Some v1 else if String.eqb k2 k then Some v2 else None.
Proof. reflexivity. Qed.
Ltac eqs := repeat match goal with |- context [String.eqb ?a ?b] => let e := eval vm_compute in (String.eqb a b) in change (String.eqb a b) with e; cbv beta iota end.
Ltac look2 := repeat first [rewrite assoc_two | rewrite assoc_one | rewrite assoc_gopt | rewrite assoc_hooks | rewrite assoc_handler | rewrite assoc_gopt_end | rewrite assoc_vsize_end | rewrite assoc_two_end]; eqs.
Lemma assoc_map_gv : forall (B : Type) (f : B -> gv) l k, assoc k (map (fun x : string * B => (fst x, f (snd x))) l) = match assoc k l with Some v => Some (f v) | None => None end.
Proof. intros B f l k. induction l as [|[x y] l IH]; [reflexivity|]. cbn [map fst snd assoc]. destruct (String.eqb x k); [reflexivity|exact IH]. Qed.

Lemma in_gopt : forall k k' v, In k (map fst (gopt k' v)) -> k = k'.
Proof. intros k k' [v|]; cbn; intuition. Qed.
Lemma in_gstrv : forall k k' v, In k (map fst (gstrv k' v)) -> k = k'.
Proof. intros k k' [|v r]; cbn; intuition. Qed.
(** uniqueness by blocks *)
Definition uniq (d : list (string * gv)) : Prop := NoDup (map fst d) /\ Forall (fun kv => keys_unique (snd kv)) d.
Lemma uniq_gd : forall d, uniq d -> keys_unique (GD d).
Proof. intros d (H1 & H2). split; [exact H1|]. induction H2 as [|[k v] d Hx _ IH]; [exact Logic.I|]. split; [exact Hx|]. apply IH. now inversion H1. Qed.
Lemma uniq_app : forall a b, uniq a -> uniq b -> (forall k, In k (map fst a) -> ~ In k (map fst b)) -> uniq (a ++ b).
Proof.
  intros a b (A1 & A2) (B1 & B2) D. split; [|apply Forall_app; auto]. rewrite map_app. clear A2 B2. induction (map fst a) as [|k l IH]; [exact B1|]. cbn [app]. inversion A1; subst. constructor.
  - intros H. apply in_app_or in H as [H|H]; [contradiction|]. exact (D k (or_introl eq_refl) H).
  - apply IH; [assumption|]. intros x Hx. apply D. right. exact Hx.
Qed.
Lemma uniq_gopt : forall k v, uniq (gopt k v).
Proof. intros k [v|]; split; cbn; repeat constructor; cbn; auto. Qed.
Lemma uniq_gstrv : forall k v, uniq (gstrv k v).
Proof. intros k [|v r]; split; cbn; repeat constructor; cbn; auto. Qed.
Lemma uniq_single : forall k v, keys_unique v -> uniq [(k, v)].
Proof. intros k v H. split; cbn; repeat constructor; cbn; auto. Qed.
Lemma uniq_two : forall k1 k2 v1 v2, k1 <> k2 -> keys_unique v1 -> keys_unique v2 -> uniq [(k1, v1); (k2, v2)].
Proof.
  intros k1 k2 v1 v2 N H1 H2. split; [|constructor; [exact H1|constructor; [exact H2|constructor]]]. cbn [map fst]. constructor; [intros [H|[]]; congruence|]. constructor; [intros []|constructor].
Qed.
Lemma uniq_nil : uniq [].
Proof. split; constructor. Qed.
Lemma image_keys : forall i, keys_unique (image_dict i).
Proof.
  intros i. apply uniq_gd.
  assert (SZ : forall (b : bool) n, uniq (if b then [] else [("size"%string, GT n)])) by (intros [|] n; [apply uniq_nil|apply uniq_single; exact Logic.I]).
  assert (SK : forall k (b : bool) n, In k (map fst (if b then [] else [("size"%string, GT n)])) -> k = "size"%string) by (intros k [|] n; cbn; intuition).
  repeat (apply uniq_app; [first [apply uniq_gopt|apply uniq_gstrv|apply SZ|apply uniq_single; exact Logic.I]| |]);
    try solve [apply uniq_gstrv];
    intros k Hk Hr; rewrite ?map_app in Hr; rewrite ?in_app_iff in Hr; first [apply in_gopt in Hk | apply in_gstrv in Hk | apply SK in Hk | destruct Hk as [Hk|[]]; cbn [fst] in Hk]; subst k;
    repeat match goal with H : _ \/ _ |- _ => destruct H as [H|H] end;
    first [apply in_gopt in Hr; discriminate Hr | apply in_gstrv in Hr; discriminate Hr | apply SK in Hr; discriminate Hr | destruct Hr as [Hr|[]]; discriminate Hr | idtac].
Qed.
Lemma c69_inspect_ok : forall m hash v, v = GD (manifest_dict m hash) ->
  at_path ["manifest-hash"%string] v = str_opt hash /\
  at_path ["update"; "compatible"]%string v = str_opt (mf_compatible m) /\ at_path ["update"; "version"]%string v = str_opt (mf_version m) /\
  at_path ["update"; "description"]%string v = str_opt (mf_description m) /\ at_path ["update"; "build"]%string v = str_opt (mf_build m) /\
  at_path ["bundle"; "format"]%string v = Some (GS (match mf_format m with F_PLAIN => "plain" | F_VERITY => "verity" | F_CRYPT => "crypt" end)) /\
  at_path ["bundle"; "verity-hash"]%string v = str_opt (mf_verity_hash m) /\ at_path ["bundle"; "verity-salt"]%string v = str_opt (mf_verity_salt m) /\
  at_path ["bundle"; "verity-size"]%string v = (if N.eqb (mf_verity_size m) 0 then None else Some (GT (mf_verity_size m))) /\
  at_path ["hooks"; "filename"]%string v = str_opt (mf_hook m) /\
  (mf_hook m <> None -> at_path ["hooks"; "hooks"]%string v = Some (GL (if mf_install_check m then ["install-check"%string] else []))) /\
  at_path ["handler"; "filename"]%string v = str_opt (mf_handler m) /\ (mf_handler m <> None -> at_path ["handler"; "args"]%string v = str_opt (mf_handler_args m)) /\
  (exists l, at_path ["images"%string] v = Some (GA l) /\ List.length l = List.length (mf_images m) /\
     forall n i, nth_error (mf_images m) n = Some i -> exists d, nth_error l n = Some d /\ image_says i d) /\
  (forall g k, at_path ["meta"%string; g; k] v = match assoc g (mf_meta m) with Some d => str_opt (assoc k d) | None => None end) /\
  (meta_ok m -> keys_unique v).
Proof.
  intros m hash v ->. unfold manifest_dict. cbn [at_path].
  split; [look2; cbn [at_path]; look2; now destruct hash|].
  split; [look2; cbn [at_path]; look2; now destruct (mf_compatible m)|]. split; [look2; cbn [at_path]; look2; now destruct (mf_version m)|]. split; [look2; cbn [at_path]; look2; now destruct (mf_description m)|]. split; [look2; cbn [at_path]; look2; now destruct (mf_build m)|].
  split; [look2; cbn [at_path]; look2; reflexivity|]. split; [look2; cbn [at_path]; look2; now destruct (mf_verity_hash m)|]. split; [look2; cbn [at_path]; look2; now destruct (mf_verity_salt m)|]. split; [look2; cbn [at_path]; look2; now destruct (N.eqb (mf_verity_size m) 0)|].
  split; [look2; cbn [at_path]; look2; destruct (mf_hook m); reflexivity|]. split; [intros H; look2; cbn [at_path]; look2; destruct (mf_hook m); [|contradiction]; destruct (mf_install_check m); reflexivity|].
  split; [look2; cbn [at_path]; look2; destruct (mf_handler m); [look2|]; reflexivity|]. split; [intros H; look2; cbn [at_path]; look2; destruct (mf_handler m); [|contradiction]; look2; cbn [at_path]; look2; now destruct (mf_handler_args m)|].
  split; [|split].
  - exists (map image_dict (mf_images m)). split; [look2; cbn [at_path]; look2; reflexivity|]. split; [apply map_length|]. intros n i Hn. exists (image_dict i). split; [now apply map_nth_error|apply image_says_ok].
  - intros g k. look2. rewrite (assoc_map_gv _ (fun x : list (string * string) => GD (map (fun kv : string * string => (fst kv, GS (snd kv))) x))). destruct (assoc g (mf_meta m)) as [d|]; [|reflexivity]. rewrite (assoc_map_gv _ GS). now destruct (assoc k d).
  - intros (M1 & M2). apply uniq_gd.
    assert (VK : forall (b : bool) n, uniq (if b then [] else [("verity-size"%string, GT n)])) by (intros [|] n; [apply uniq_nil|apply uniq_single; exact Logic.I]).
    assert (VI : forall k (b : bool) n, In k (map fst (if b then [] else [("verity-size"%string, GT n)])) -> k = "verity-size"%string) by (intros k [|] n; cbn; intuition).
    assert (KU : keys_unique (GD (gopt "compatible" (mf_compatible m) ++ gopt "version" (mf_version m) ++ gopt "description" (mf_description m) ++ gopt "build" (mf_build m)))).
    { apply uniq_gd. repeat (apply uniq_app; [apply uniq_gopt| |]); try apply uniq_gopt; intros k Hk Hr; apply in_gopt in Hk; subst k; rewrite ?map_app in Hr; rewrite ?in_app_iff in Hr; repeat match goal with H : _ \/ _ |- _ => destruct H as [H|H] end; apply in_gopt in Hr; discriminate Hr. }
    assert (KB : keys_unique (GD ([("format"%string, GS (fmt_str (mf_format m)))] ++ gopt "verity-hash" (mf_verity_hash m) ++ gopt "verity-salt" (mf_verity_salt m) ++ (if N.eqb (mf_verity_size m) 0 then [] else [("verity-size"%string, GT (mf_verity_size m))])))).
    { apply uniq_gd. apply uniq_app; [apply uniq_single; exact Logic.I|apply uniq_app; [apply uniq_gopt|apply uniq_app; [apply uniq_gopt|apply VK|]|]|]; intros k Hk Hr;
        first [apply in_gopt in Hk | destruct Hk as [Hk|[]]; cbn [fst] in Hk]; subst k; rewrite ?map_app in Hr; rewrite ?in_app_iff in Hr; repeat match goal with H : _ \/ _ |- _ => destruct H as [H|H] end; first [apply in_gopt in Hr; discriminate Hr | apply VI in Hr; discriminate Hr]. }
    assert (KM : keys_unique (GD (map (fun g : string * list (string * string) => (fst g, GD (map (fun kv : string * string => (fst kv, GS (snd kv))) (snd g)))) (mf_meta m)))).
    { apply uniq_gd. split; [rewrite map_map; exact M1|]. apply Forall_map. eapply Forall_impl; [|exact M2]. intros g Hg. cbn [snd]. apply uniq_gd. split; [rewrite map_map; exact Hg|]. apply Forall_map, Forall_forall. intros x _. exact Logic.I. }
    assert (KI : keys_unique (GA (map image_dict (mf_images m)))).
    { cbn [keys_unique]. induction (mf_images m) as [|i l IH]; [exact Logic.I|]. cbn [map]. split; [apply image_keys|exact IH]. }
    assert (KH : uniq (match mf_hook m with Some h => [("hooks"%string, GD [("filename"%string, GS h); ("hooks"%string, GL (flags_of [(mf_install_check m, "install-check"%string)]))])] | None => [] end)).
    { destruct (mf_hook m); [|apply uniq_nil]. apply uniq_single, uniq_gd. split; cbn; repeat constructor; cbn; intuition discriminate. }
    assert (KHa : uniq (match mf_handler m with Some h => [("handler"%string, GD ([("filename"%string, GS h)] ++ gopt "args" (mf_handler_args m)))] | None => [] end)).
    { destruct (mf_handler m); [|apply uniq_nil]. apply uniq_single, uniq_gd. apply uniq_app; [apply uniq_single; exact Logic.I|apply uniq_gopt|]. intros k [<-|[]] Hr. apply in_gopt in Hr. discriminate Hr. }
    assert (IH1 : forall k, In k (map fst (match mf_hook m with Some h => [("hooks"%string, GD [("filename"%string, GS h); ("hooks"%string, GL (flags_of [(mf_install_check m, "install-check"%string)]))])] | None => [] end)) -> k = "hooks"%string) by (intros k; destruct (mf_hook m); cbn; intuition).
    assert (IH2 : forall k, In k (map fst (match mf_handler m with Some h => [("handler"%string, GD ([("filename"%string, GS h)] ++ gopt "args" (mf_handler_args m)))] | None => [] end)) -> k = "handler"%string) by (intros k; destruct (mf_handler m); cbn; intuition).
    set (X1 := GD (gopt "compatible" _ ++ _)) in *. set (X2 := GD ([("format"%string, _)] ++ _)) in *. set (X3 := GA _) in *. set (X4 := GD (map _ (mf_meta m))) in *. clearbody X1 X2 X3 X4.
    apply uniq_app; [apply uniq_gopt| |].
    { apply uniq_app; [apply uniq_two; [discriminate|exact KU|exact KB]| |].
      { apply uniq_app; [exact KH| |].
        { apply uniq_app; [exact KHa|apply uniq_two; [discriminate|exact KI|exact KM]|]. intros k Hk Hr. apply IH2 in Hk. subst k. cbn in Hr. intuition discriminate. }
        intros k Hk Hr. apply IH1 in Hk. subst k. rewrite map_app, in_app_iff in Hr. destruct Hr as [Hr|Hr]; [apply IH2 in Hr; discriminate|]. cbn in Hr. intuition discriminate. }
      intros k Hk Hr. rewrite !map_app, !in_app_iff in Hr. destruct Hr as [Hr|[Hr|Hr]]; [apply IH1 in Hr|apply IH2 in Hr|]; cbn in Hk; [intuition (subst; discriminate)..|]. cbn in Hr. intuition (subst; discriminate). }
    intros k Hk Hr. apply in_gopt in Hk. subst k. rewrite !map_app, !in_app_iff in Hr. destruct Hr as [Hr|[Hr|[Hr|Hr]]]; [cbn in Hr; intuition discriminate|apply IH1 in Hr; discriminate|apply IH2 in Hr; discriminate|cbn in Hr; intuition discriminate].
Qed.
(** the key of an encrypted bundle is not in the reply *)
Lemma c69_secret_ok : forall m m' hash, same_but_key m m' -> manifest_dict m' hash = manifest_dict m hash.
Proof. intros m m' hash (k & ->). reflexivity. Qed.
