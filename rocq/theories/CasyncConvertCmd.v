(** Proofs for C63: the commands; what is left behind; shared files. *)
From Verif Require Import Base BaseLemmas KeyFile KeyFileLemmas Image Manifest BundleCreate BundleCreateSpec BundleCreateLink BundleCreateFrame
  BundleCreateProofs BundleCreateRun BundleCreateOut BundleCreateDone BundleCreateMore ShellWords CasyncConvert CasyncConvertSpec CasyncConvertProofs CasyncConvertRun CasyncConvertEnd CasyncConvertDone CasyncConvertTmp.
From Verif Require SlotWrite.

Definition lga {A} (P : call -> Prop) (m : M A) (s : st) : Prop := exists l, s_log (snd (m s)) = l ++ s_log s /\ Forall P l.
Lemma lga_bind : forall A B P (m : M A) (f : A -> M B) s, lga P m s -> (forall x s1, m s = (Some x, s1) -> lga P (f x) s1) -> lga P (mbind m f) s.
Proof.
  intros A B P m f s (l & E & F) H. unfold lga, mbind. destruct (m s) as [[x |] s1] eqn:M1; cbn [snd] in *; [| eauto].
  destruct (H x s1 eq_refl) as (l' & E' & F'). exists (l' ++ l). rewrite E', E, app_assoc. split; [reflexivity | apply Forall_app; auto].
Qed.

Definition other_call (c : call) : Prop := match c with KTool _ | KStoreDir _ | KRemove _ => False | _ => True end.

Lemma lg_squash : forall e (P : call -> Prop) p a b, P (KSquash p a b) -> lg P (mksquashfs e p a b).
Proof.
  intros e P p a b H. apply lg_bind; [apply lg_get | intro s]. destruct (s_out s); [apply lg_fail |]. apply lg_bind; [apply lg_ask; assumption | intro x].
  destruct (a_ok x); [destruct (tget _ _) as [[| | |] |]; try apply lg_fail; apply lg_out | apply lg_bind; [apply lg_out | intro; apply lg_fail]].
Qed.
Lemma lg_sign : forall e m s, exists l, s_log (snd (sign_bundle e m s)) = l ++ s_log s /\ Forall other_call l.
Proof.
  assert (RW : forall e k f, other_call k -> lg other_call (rewrite_out e k f)).
  { intros e k f H. apply lg_bind; [apply lg_ask; assumption | intro a]. apply lg_bind; [apply lg_get | intro].
    destruct (a_ok a); (apply lg_bind; [apply lg_out | intro]); [apply lg_ret | apply lg_fail]. }
  assert (L : forall A (q : M A) s, lg other_call q -> exists l, s_log (snd (lift q s)) = l ++ s_log s /\ Forall other_call l).
  { intros A q s H. destruct (H s) as (l & E & F). exists l. unfold lift. destruct (q s) as [[|] ?]; auto. }
  assert (SG : forall e m, lg other_call (sign e m)).
  { intros e m. unfold sign. match goal with |- lg _ (match ?X with _ => _ end) => destruct X; try apply lg_fail end. apply lg_bind; [apply RW; exact I | intro; apply lg_ret]. }
  intros e m s. unfold sign_bundle. destruct (bformat_eqb _ _); [apply L, SG |].
  assert (X : exists l, s_log (snd (create_verity e m s)) = l ++ s_log s /\ Forall other_call l).
  { unfold create_verity. destruct (L _ (ask_ok e KVerityOpen) s) as (l & E & F); [apply lg_ask_ok; exact I |].
    destruct (lift (ask_ok e KVerityOpen) s) as [[| |] s1]; cbn [snd] in E; try (exists l; auto; fail).
    destruct (mf_verity_salt m); [exists l; auto |]. destruct (mf_verity_hash m); [exists l; auto |]. destruct (mf_verity_size m =? 0)%N; [| exists l; auto].
    match goal with |- context [lift ?q s1] => destruct (L _ q s1) as (l' & E' & F') end; [apply lg_bind; [apply RW; exact I | intro; apply lg_ret] |].
    exists (l' ++ l). rewrite E', E, app_assoc. split; [reflexivity | apply Forall_app; auto]. }
  destruct X as (l & E & F). destruct (create_verity e m s) as [[m1 | |] s1]; cbn [snd] in *; try (exists l; auto; fail).
  destruct (L _ (sign e m1) s1 (SG e m1)) as (l' & E' & F'). exists (l' ++ l). rewrite E', E, app_assoc. split; [reflexivity | apply Forall_app; auto].
Qed.

Definition from_manifest (e : env) (o : copt) (t : string) (raw : cont) (c : call) : Prop :=
  other_call c \/ exists kf m0 i f, e_parse e raw = Some kf /\ parse_manifest kf = Ok m0 /\ In i (mf_images m0) /\ target o i = Some f /\ image_call e o t f c.

Lemma lg_weak : forall A (P Q : call -> Prop) (m : M A), (forall c, P c -> Q c) -> lg P m -> lg Q m.
Proof. intros A P Q m H K s. destruct (K s) as (l & E & F). exists l. split; [assumption |]. eapply Forall_impl; [exact H | exact F]. Qed.

Lemma content_log : forall e o b t s n0, has_prefix "rauc-casync-" t = true -> assoc MF b = Some (Reg n0) -> 
  lga (from_manifest e o t (s_cont s n0)) (convert_content e o b t) s.
Proof.
  intros e o b t s n0 PT MB. set (P := from_manifest e o t (s_cont s n0)).
  assert (OC : forall c, other_call c -> P c) by (intros c H; left; exact H).
  apply lga_bind.
  { apply lg_bind; [apply lg_ask_ok, OC; exact I | intro]. apply lg_bind; [apply lg_ask, OC; exact I | intro a].
    destruct (a_ok a); [apply lg_put | apply lg_bind; [apply lg_put | intro; apply lg_fail]]. }
  intros [] x1 E.
  assert (EX : s_cont x1 = s_cont s /\ forall es, tget (s_root x1) [t; "content"] = Some (Dir es) -> es = b).
  { apply mbind_some in E as ([] & y & A & E). apply ask_ok_inv in A. subst y. apply mbind_some in E as (a & y & A & E). apply ask_inv in A as [_ ->].
    destruct (a_ok a); [| apply mbind_some in E as (? & ? & _ & E); discriminate]. injection E as <-.
    split; [reflexivity |]. unfold put, set_root. cbn [s_root tget tput]. intros es. destruct (assoc t (s_root s)) as [[| es' | |] |] eqn:AT; rewrite ?AT; try discriminate.
    rewrite assoc_set_eq. cbn [tget]. rewrite assoc_set_eq. congruence. }
  clear E. destruct EX as [C1 TG]. apply lga_bind.
  { match goal with |- lga P ?q _ => cut (lg P q); [intro X; apply X |] end.
    apply lg_bind; [apply lg_get | intro y]. apply lg_bind; [apply lg_ask, OC; exact I | intro a]. destruct (tget (s_root y) _) as [[| es | |] |]; try apply lg_fail.
    destruct (source es MF a y); [| apply lg_fail]. apply lg_bind; [apply lg_guard | intro]. destruct (e_parse e c); [| apply lg_fail].
    destruct (parse_manifest k); [apply lg_ret | apply lg_fail | apply lg_fail]. }
  intros m0 x2 L.
  assert (PM : exists kf, e_parse e (s_cont s n0) = Some kf /\ parse_manifest kf = Ok m0).
  { apply mbind_some in L as (y & y' & G & L). injection G as <- <-. apply mbind_some in L as (a & y & A & L). apply ask_inv in A as [_ ->].
    destruct (tget (s_root x1) [t; "content"]) as [[| es | |] |] eqn:TE; try discriminate. rewrite (TG es eq_refl) in L. unfold source in L. rewrite MB in L.
    apply mbind_some in L as ([] & z & G & L). apply guard_some in G as [_ ->]. rewrite C1 in L.
    destruct (e_parse e (s_cont s n0)) as [kf |]; [| discriminate]. destruct (parse_manifest kf) as [m1 | |] eqn:PM; try discriminate. injection L as -> _. eauto. }
  destruct PM as (kf & EP & PM). cbv zeta. apply lga_bind.
  { apply lg_each. intros i II. eapply lg_weak; [| apply lg_one]. intros c (f & T & IC). right. exists kf, m0, i, f. auto. }
  intros l x3 _. apply lga_bind; [apply lg_set, OC; exact I | intros [] x4 _]. apply lga_bind; [apply lg_squash, OC; exact I | intros [] x5 _]. apply lg_ret.
Qed.

Lemma run_log : forall e o b s n0, s_out s = None -> assoc MF b = Some (Reg n0) ->
  exists t l, has_prefix "rauc-casync-" t = true /\ s_log (snd (create_casync e o b s)) = l ++ s_log s /\ Forall (from_manifest e o t (s_cont s n0)) l.
Proof.
  intros e o b s n0 O MB.
  assert (CV : forall s0, s_cont s0 = s_cont s -> exists t l, has_prefix "rauc-casync-" t = true /\ s_log (snd (convert_bundle e o b s0)) = l ++ s_log s0 /\ Forall (from_manifest e o t (s_cont s n0)) l).
  { intros s0 C0. unfold convert_bundle. destruct (make_tmp e "rauc-casync-" s0) as [[t |] s1] eqn:T.
    2: { exists "rauc-casync-". destruct (lg_tmp e other_call "rauc-casync-" I s0) as (l & E & F). rewrite T in E. exists l. split; [reflexivity |]. split; [exact E |].
         eapply Forall_impl; [| exact F]. intros c H. left. exact H. }
    assert (T' := T). apply make_tmp_inv in T' as (PT & _ & _ & C1 & _ & _ & L1). exists t.
    assert (X := content_log e o b t s1 n0 PT MB). rewrite C1, C0 in X.
    assert (W : forall (r : fin unit) s3, (exists l, s_log s3 = l ++ s_log s0 /\ Forall (from_manifest e o t (s_cont s n0)) l) ->
       exists l, has_prefix "rauc-casync-" t = true /\ s_log (snd (match r with FAbort => (FAbort, s3) | _ => (r, snd (rm_tree e [t] s3)) end)) = l ++ s_log s0 /\ Forall (from_manifest e o t (s_cont s n0)) l).
    { intros r s3 (l & E & F). destruct (rm_tree_keeps e [t] s3) as (_ & _ & Q).
      destruct r; [exists (KRmTree [t] :: l) | exists (KRmTree [t] :: l) | exists l; auto]; (split; [assumption |]); cbn [snd]; rewrite Q, E; (split; [reflexivity | constructor; [left; exact I | assumption]]). }
    destruct X as (l & E & F). assert (F1 : Forall (from_manifest e o t (s_cont s n0)) (l ++ [KTmp "rauc-casync-"])) by (apply Forall_app; split; [assumption | repeat constructor; left; exact I]).
    destruct (convert_content e o b t s1) as [[m |] s2]; cbn [snd] in E.
    - destruct (lg_sign e m s2) as (l' & E' & F'). destruct (sign_bundle e m s2) as [r s3]; cbn [snd] in E'. apply W. exists (l' ++ l ++ [KTmp "rauc-casync-"]). rewrite E', E, L1, <- !app_assoc.
      split; [reflexivity |]. apply Forall_app. split; [eapply Forall_impl; [| exact F']; intros c H; left; exact H | assumption].
    - apply (W FFail). exists (l ++ [KTmp "rauc-casync-"]). rewrite E, L1, <- app_assoc. auto. }
  unfold create_casync. rewrite O.
  assert (W : forall (r : fin unit) s1 t l, has_prefix "rauc-casync-" t = true -> s_log s1 = l ++ s_log s -> Forall (from_manifest e o t (s_cont s n0)) l ->
    exists t l, has_prefix "rauc-casync-" t = true /\ s_log (snd (match r with
      | FAbort => (Aborted, s1) | FVal _ => (Ret true false, s1)
      | FFail => match s_out s1 with None => (Ret false true, s1)
          | Some _ => match ask e KUnlinkOut s1 with (Some a, s) => (Ret false true, if a_ok a then set_out None s else s) | (None, s) => (Ret false true, s) end end end)) = l ++ s_log s
      /\ Forall (from_manifest e o t (s_cont s n0)) l).
  { intros r s1 t l PT E F. exists t. destruct r; [exists l; auto | | exists l; auto]. destruct (s_out s1); [| exists l; auto]. exists (KUnlinkOut :: l).
    split; [assumption |]. split; [| constructor; [left; exact I | assumption]]. cbn. destruct (a_ok _); cbn; rewrite E; reflexivity. }
  destruct (ask_ok e KPayload s) as [[[] |] s0] eqn:A.
  - apply ask_ok_inv in A. destruct (CV s0) as (t & l & PT & E & F); [subst s0; reflexivity |]. destruct (convert_bundle e o b s0) as [r s1]; cbn [snd] in E.
    apply (W r s1 t (l ++ [KPayload])); [assumption | rewrite E, A, <- app_assoc; reflexivity | apply Forall_app; split; [assumption | repeat constructor; left; exact I]].
  - apply (W FFail s0 "rauc-casync-" [KPayload]); [reflexivity | | repeat constructor; left; exact I].
    unfold ask_ok, mbind, ask in A. cbn in A. destruct (a_ok _); [discriminate | injection A as <-; reflexivity].
Qed.

Lemma stake_drop : forall n s, s = (stake n s ++ sdrop n s)%string.
Proof. induction n as [| n IH]; intros [| c s]; cbn; try reflexivity. f_equal. apply IH. Qed.
Lemma stake_app : forall a b, stake (String.length a) (a ++ b) = a.
Proof. induction a as [| c a IH]; intro b; cbn; [destruct b; reflexivity | rewrite IH; reflexivity]. Qed.
Lemma sdrop_app : forall a b, sdrop (String.length a) (a ++ b) = b.
Proof. induction a as [| c a IH]; intro b; cbn; [destruct b; reflexivity | apply IH]. Qed.
Lemma store_ok : forall o, store_for (o_out o) (store_path o).
Proof.
  intro o. unfold store_for, store_path, SlotWrite.has_suffix. destruct (Nat.leb _ _) eqn:L; cbn [andb].
  - destruct (String.eqb_spec (sdrop (String.length (o_out o) - String.length ".raucb") (o_out o)) ".raucb") as [E | E].
    + left. exists (stake (String.length (o_out o) - 6) (o_out o)). split; [| reflexivity]. rewrite <- E at 1. apply stake_drop.
    + right. split; [| reflexivity]. intros a A. apply E. rewrite A, length_app_s, Nat.add_sub. apply sdrop_app.
  - right. split; [| reflexivity]. intros a A. rewrite A, length_app_s in L. apply Nat.leb_gt in L. lia.
Qed.

Lemma has_prefix_app : forall a b c, has_prefix b c = true -> has_prefix (a ++ b) (a ++ c) = true.
Proof. induction a as [| x a IH]; intros b c H; [assumption |]. cbn. rewrite Ascii.eqb_refl. apply IH. assumption. Qed.

Lemma arch_tokens : forall o idx src tmp args,
  sh_tokens (join " " (map text (arch_pieces o idx src tmp args)))
  = Some ([TWord "tar"; TWord "xf"; TWord src; TWord "-C"; TWord tmp; TWord "--numeric-owner"; TAnd;
           TWord "casync"; TWord "make"; TWord "--with=unix"; TWord idx; TWord tmp; TWord "--store"; TWord (store_path o)] ++ map TWord args).
Proof.
  intros. rewrite sh_pieces.
  - unfold arch_pieces. rewrite map_app, map_map. reflexivity.
  - unfold arch_pieces. rewrite forallb_app. apply andb_true_intro. split; [reflexivity |]. induction args; [reflexivity | assumption].
Qed.

(** every program run, every file removed *)
Lemma c63_commands_ok : forall e o b s r s' n0, s_out s = None -> create_casync e o b s = (r, s') -> assoc "manifest.raucm" b = Some (Reg n0) ->
  exists t l, has_prefix "rauc-casync-" t = true /\ s_log s' = l ++ s_log s /\
    forall c, In c l ->
      match c with
      | KTool argv => exists kf m0 i f x store args,
          e_parse e (s_cont s n0) = Some kf /\ parse_manifest kf = Ok m0 /\ In i (mf_images m0) /\ replaced (o_ignore o) i f x
          /\ store_for (o_out o) store /\ extra_args o args
          /\ tool_call e o f (o_tmpdir o ++ "/" ++ t ++ "/content/" ++ f) (o_tmpdir o ++ "/" ++ t ++ "/content/" ++ x) store args argv
      | KRemove p => exists kf m0 i f x,
          e_parse e (s_cont s n0) = Some kf /\ parse_manifest kf = Ok m0 /\ In i (mf_images m0) /\ replaced (o_ignore o) i f x
          /\ p = (o_tmpdir o ++ "/" ++ t ++ "/content/" ++ f)%string
      | KStoreDir p => store_for (o_out o) p /\ o_desync o = true
      | _ => True
      end.
Proof.
  intros e o b s r s' n0 O H MB. destruct (run_log e o b s n0 O MB) as (t & l & PT & E & F). rewrite H in E. cbn [snd] in E.
  exists t, l. split; [assumption |]. split; [assumption |]. intros c I. rewrite Forall_forall in F. apply F in I.
  destruct I as [OC | (kf & m0 & i & f & EP & PM & II & TG & IC)]; [destruct c; try exact Logic.I; destruct OC |].
  assert (RP : replaced (o_ignore o) i f (index_name f)) by (apply target_iff; auto).
  destruct c; try exact Logic.I; cbn [image_call] in IC.
  - destruct IC as (args & GA & IC). exists kf, m0, i, f, (index_name f), (store_path o), args.
    split; [assumption |]. split; [assumption |]. split; [assumption |]. split; [assumption |]. split; [apply store_ok |]. split; [exact GA |].
    unfold tool_call. destruct IC as [(-> & C) | (tmp & PA & AR & D & ->)].
    + unfold blob_argv. destruct (o_desync o); [reflexivity |]. left. split; [| reflexivity]. destruct C as [C | C]; [| discriminate].
      intro A. apply is_archive_iff in A. congruence.
    + rewrite D. right. split; [apply is_archive_iff; assumption |]. exists (o_tmpdir o ++ "/" ++ tmp)%string. eexists. split.
      * apply has_prefix_app. exact (has_prefix_app "/" "arch-" tmp PA).
      * split; [reflexivity |]. apply arch_tokens.
  - destruct IC as [-> D]. split; [apply store_ok | assumption].
  - subst p. exists kf, m0, i, f, (index_name f). auto.
Qed.

(** ** the directories for unpacked archives stay *)
Lemma fits_keep : forall t r r' n, fits t r r' -> n <> t -> assoc n r <> None -> assoc n r' <> None.
Proof. intros t r r' n F N A. destruct (F n N) as [E | [E _]]; congruence. Qed.

Lemma each_leaks : forall e o t l s l' s', has_prefix "rauc-casync-" t = true -> each_image (convert_one e o t) l s = (Some l', s') ->
  (exists i f, In i l /\ target o i = Some f /\ is_archive f = true) -> o_desync o = false ->
  exists n, has_prefix "arch-" n = true /\ assoc n (s_root s) = None /\ assoc n (s_root s') <> None.
Proof.
  intros e o t l. induction l as [| i r IH]; intros s l' s' PT H (j & f & J & TG & AR) D; [destruct J |].
  cbn [each_image] in H. apply mbind_some in H as (i' & s1 & C & H). apply mbind_some in H as (r' & s2 & R & H). injection H as <- <-.
  assert (F1 := fr_one e o t i PT s). rewrite C in F1. assert (F2 := fr_each t (convert_one e o t) r (fun i => fr_one e o t i PT) s1). rewrite R in F2. cbn [snd] in *.
  destruct J as [-> | J].
  - unfold convert_one in C. unfold target in TG. destruct (im_filename j) as [g |]; [| discriminate]. destruct (existsb _ _); [discriminate |]. injection TG as ->. rewrite AR in C.
    apply mbind_some in C as ([] & y & A & C). unfold make_arch in A. rewrite D in A. apply mbind_some in A as (n & z & T & A).
    apply make_tmp_inv in T as (PA & NF & RT & _). exists n. split; [assumption |]. split; [assumption |].
    assert (NT : n <> t) by (eapply prefix_neq; eassumption).
    assert (Z : assoc n (s_root z) <> None) by (rewrite RT, assoc_set_eq; discriminate).
    assert (G1 := fr_bind _ _ t (parse_args o) (fun args => run_tool e (arch_argv e o (content_path o t (index_name f)) (content_path o t f) (o_tmpdir o ++ "/" ++ n)%string args) t f (index_name f)) (fr_args t o) (fun x => fr_tool e _ t f _) z).
    rewrite A in G1. cbn [snd] in G1.
    assert (G2 : fits t (s_root y) (s_root s1)).
    { match type of C with ?q y = _ => assert (Q : fr t q); [| specialize (Q y); rewrite C in Q; exact Q] end.
      apply fr_bind; [apply fr_ask | intro a]. apply fr_bind; [destruct (_ && _); [apply fr_put | apply fr_ret] | intro; apply fr_ret]. }
    eapply fits_keep; [exact F2 | assumption |]. eapply fits_keep; [exact G2 | assumption |]. eapply fits_keep; [exact G1 | assumption | assumption].
  - destruct (IH s1 r' s2 PT R) as (n & PA & A1 & A2); [eauto | assumption |]. exists n. split; [assumption |]. split; [| assumption].
    assert (NT : n <> t) by (eapply prefix_neq; eassumption). destruct (F1 n NT) as [E | [E _]]; congruence.
Qed.

(** every successful conversion of an archive with casync leaves a directory behind *)
Lemma c63_leak_ok : forall e o b s s' n0 kf m0 i f x, s_out s = None -> create_casync e o b s = (Ret true false, s') ->
  assoc "manifest.raucm" b = Some (Reg n0) -> e_parse e (s_cont s n0) = Some kf -> parse_manifest kf = Ok m0 ->
  In i (mf_images m0) -> replaced (o_ignore o) i f x -> archive_file f -> o_desync o = false ->
  exists n, has_prefix "arch-" n = true /\ assoc n (s_root s) = None /\ assoc n (s_root s') <> None.
Proof.
  intros e o b s s' n0 kf m0 i f x O H MB EP PM II RP AR D.
  destruct (success_inv _ _ _ _ _ O H) as (t & x1 & m & x2 & x3 & T & PT & CC & SB & ->).
  apply make_tmp_inv in T as (_ & TN & R1 & C1 & N1 & O1 & L1). cbn [s_root s_cont s_next s_out s_log] in *.
  assert (E2 : exists y1 y2 l, each_image (convert_one e o t) (mf_images m0) y1 = (Some l, y2) /\ fits t (s_root x1) (s_root y1) /\ fits t (s_root y2) (s_root x2)).
  { apply mbind_some in CC as ([] & y1 & E & CC). apply mbind_some in CC as (m1 & y2 & L & CC). cbv zeta in CC. apply mbind_some in CC as (l & y3 & EA & CC).
    assert (FE : fits t (s_root x1) (s_root y1)).
    { assert (Q : fr t (extract e b t)). { apply fr_bind; [apply fr_ask_ok | intro]. apply fr_bind; [apply fr_ask | intro a]. destruct (a_ok a); [apply fr_put | apply fr_bind; [apply fr_put | intro; apply fr_fail]]. }
      specialize (Q x1). rewrite E in Q. exact Q. }
    assert (EX : s_cont y1 = s_cont x1 /\ forall es, tget (s_root y1) [t; "content"] = Some (Dir es) -> es = b).
    { apply mbind_some in E as ([] & y & A & E). apply ask_ok_inv in A. subst y. apply mbind_some in E as (a & y & A & E). apply ask_inv in A as [_ ->].
      destruct (a_ok a); [| apply mbind_some in E as (? & ? & _ & E); discriminate]. injection E as <-.
      split; [reflexivity |]. unfold put, set_root. cbn [s_root tget tput]. intros es. destruct (assoc t (s_root x1)) as [[| es' | |] |] eqn:AT; rewrite ?AT; try discriminate.
      rewrite assoc_set_eq. cbn [tget]. rewrite assoc_set_eq. congruence. }
    destruct EX as [C2 TG].
    apply mbind_some in L as (y & y' & G & L). injection G as <- <-. apply mbind_some in L as (a & y & A & L). apply ask_inv in A as [_ ->].
    destruct (tget (s_root y1) [t; "content"]) as [[| es | |] |] eqn:TE; try discriminate. rewrite (TG es eq_refl) in L. unfold source in L. unfold MF in L. rewrite MB in L.
    apply mbind_some in L as ([] & z & G & L). apply guard_some in G as [_ ->]. rewrite C2, C1, EP, PM in L. injection L as EM <-. subst m1.
    exists (mkSt (s_root y1) (s_cont s) (s_next y1) (s_out y1) (s_fake y1) (KLoad :: s_log y1)), y3, l. split; [exact EA |]. split; [exact FE |].
    match type of CC with ?q y3 = _ => assert (Q : fr t q); [| specialize (Q y3); rewrite CC in Q; exact Q] end.
    apply fr_bind; [apply fr_set | intro]. apply fr_bind; [apply fr_squash | intro; apply fr_ret]. }
  destruct E2 as (y1 & y2 & l & EA & FA & FB). apply target_iff in RP as [TG _]. apply is_archive_iff in AR.
  destruct (each_leaks e o t _ _ _ _ PT EA) as (n & PA & A1 & A2); [eauto | assumption |].
  assert (NT : n <> t) by (eapply prefix_neq; eassumption). exists n. split; [assumption |]. split.
  - assert (X : assoc n (s_root x1) = None) by (destruct (FA n NT) as [E | [E _]]; congruence). rewrite R1, assoc_set_neq in X by congruence. assumption.
  - assert (SR := sign_root e m x2). rewrite SB in SR. cbn [snd] in SR. eapply fits_keep; [apply fr_rm | assumption |]. rewrite SR.
    eapply fits_keep; [exact FB | assumption | assumption].
Qed.
