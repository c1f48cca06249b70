From Verif Require Import Base BaseLemmas Slot Uboot UbootProofs Grub GrubSpec.

Lemma no_char_cons c a s : no_char c (String a s) = negb (Ascii.eqb a c) && no_char c s.
Proof. reflexivity. Qed.

(** a "key=" prefix matches a rendered line exactly when the names agree *)
Lemma has_prefix_key k k' v : no_char "=" k = true -> no_char "=" k' = true ->
  has_prefix (k ++ "=") (k' ++ "=" ++ v) = String.eqb k' k.
Proof.
  revert k'. induction k as [|a k IH]; intros k' Hk Hk'.
  - destruct k' as [|b k']; [reflexivity|]. rewrite no_char_cons in Hk'.
    apply andb_true_iff in Hk' as [Hb _]. cbn [append has_prefix String.eqb].
    destruct (Ascii.eqb_spec "=" b) as [<-|]; [discriminate|]. reflexivity.
  - destruct k' as [|b k'].
    + rewrite no_char_cons in Hk. apply andb_true_iff in Hk as [Ha _]. cbn [append has_prefix String.eqb].
      apply negb_true_iff in Ha. now rewrite Ha.
    + rewrite no_char_cons in *. apply andb_true_iff in Hk as [_ Hk], Hk' as [_ Hk'].
      change ((String a k ++ "=")%string) with (String a (k ++ "=")).
      change ((String b k' ++ "=" ++ v)%string) with (String b (k' ++ "=" ++ v)).
      cbn [has_prefix String.eqb]. rewrite (IH k' Hk Hk').
      destruct (Ascii.eqb_spec a b) as [->|Hn].
      * now rewrite Ascii.eqb_refl.
      * destruct (Ascii.eqb_spec b a); [congruence|reflexivity].
Qed.

Lemma line_eq k v acc : (k ++ "=" ++ v ++ String nl acc = (k ++ "=" ++ v) ++ String nl acc)%string.
Proof. now rewrite !app_assoc_s. Qed.

Lemma split_list e : wf_genv e ->
  split_on nl (editenv_list e) = map (fun kv => (fst kv ++ "=" ++ snd kv)%string) e ++ [""].
Proof.
  induction e as [|[k v] e IH]; intros Hwf; [reflexivity|].
  inversion Hwf as [|? ? (H1 & H2 & H3) Hr]; subst. cbn [fst snd] in *.
  change (editenv_list ((k, v) :: e)) with (k ++ "=" ++ v ++ String nl (editenv_list e))%string.
  rewrite line_eq, split_on_cons; [|rewrite !no_char_app, H2, H3; reflexivity].
  rewrite (IH Hr). reflexivity.
Qed.

Lemma grub_get_spec e k : wf_genv e -> no_char "=" k = true ->
  grub_env_get (Some (editenv_list e)) k =
  match gvar e k with Some v => Ok (chomp v) | None => Err end.
Proof.
  intros Hwf Hk. unfold grub_env_get.
  assert (Hs : forall ls, (g_strsplit nl (editenv_list e) = ls -> True)) by auto. clear Hs.
  assert (Hf : forall l, grub_find (k ++ "=") (l ++ [""]) = grub_find (k ++ "=") l).
  { induction l as [|x l IH]; cbn [app grub_find].
    - destruct k; reflexivity.
    - destruct (has_prefix (k ++ "=") x); [reflexivity|assumption]. }
  assert (Hgs : grub_find (k ++ "=") (g_strsplit nl (editenv_list e)) =
                grub_find (k ++ "=") (map (fun kv => (fst kv ++ "=" ++ snd kv)%string) e)).
  { unfold g_strsplit. destruct (editenv_list e) eqn:E.
    - destruct e as [|[k0 v0] e]; [reflexivity|]. exfalso. cbn in E. destruct k0; discriminate.
    - rewrite <- E, split_list by assumption. apply Hf. }
  rewrite Hgs. clear Hgs Hf.
  unfold gvar. induction e as [|[k' v] e IH]; [reflexivity|].
  inversion Hwf as [|? ? (H1 & H2 & H3) Hr]; subst. cbn [fst snd] in *.
  cbn [map grub_find find fst snd]. rewrite (has_prefix_key k k' v Hk H1).
  destruct (String.eqb_spec k' k) as [->|Hn].
  - f_equal. f_equal. rewrite <- app_assoc_s. apply sdrop_app.
  - apply IH. assumption.
Qed.

Lemma gvar_set_eq e k v : gvar (genv_set e k v) k = Some v.
Proof.
  unfold gvar. induction e as [|[k' v'] e IH]; cbn [genv_set find fst snd].
  - now rewrite String.eqb_refl.
  - destruct (String.eqb_spec k k') as [->|Hn]; cbn [find fst snd].
    + now rewrite String.eqb_refl.
    + destruct (String.eqb_spec k' k); [congruence|]. exact IH.
Qed.

Lemma gvar_set_neq e k v k' : k <> k' -> gvar (genv_set e k v) k' = gvar e k'.
Proof.
  intros Hk. unfold gvar. induction e as [|[k0 v0] e IH]; cbn [genv_set find fst snd].
  - destruct (String.eqb_spec k k'); [congruence|reflexivity].
  - destruct (String.eqb_spec k k0) as [->|Hn]; cbn [find fst snd].
    + destruct (String.eqb_spec k0 k'); [congruence|reflexivity].
    + destruct (String.eqb k0 k'); [reflexivity|exact IH].
Qed.

Lemma wf_set e k v : wf_genv e -> no_char "=" k = true -> no_char nl k = true -> no_char nl v = true ->
  wf_genv (genv_set e k v).
Proof.
  intros Hwf H1 H2 H3. induction Hwf as [|[k0 v0] e (Ha & Hb & Hc) Hr IH]; cbn [genv_set].
  - repeat constructor; auto.
  - destruct (String.eqb k k0); constructor; cbn; auto.
Qed.

Lemma split_max_1 c k v : no_char c k = true -> split_max c 1 (k ++ String c v) = [k; v].
Proof.
  induction k as [|a k IH]; intros H.
  - cbn. now rewrite Ascii.eqb_refl.
  - rewrite no_char_cons in H. apply andb_true_iff in H as [Ha Hk]. apply negb_true_iff in Ha.
    specialize (IH Hk). cbn in *. rewrite Ha. now rewrite IH.
Qed.

Lemma assign_spec e k v : no_char "=" k = true -> editenv_assign e (k ++ "=" ++ v) = genv_set e k v.
Proof. intros H. unfold editenv_assign. change ("=" ++ v)%string with (String "=" v). now rewrite split_max_1. Qed.

Lemma ok_bootname_spec b : ok_bootname b = true ->
  clean_word b = true /\ no_char "=" b = true /\ no_char nl b = true.
Proof.
  unfold ok_bootname. rewrite andb_true_iff. intros [H1 H2]. repeat split; auto.
  apply clean_word_spec in H1 as [_ H1]. revert H1. apply all_chars_impl.
  intros c Hc. destruct (Ascii.eqb_spec c nl); [subst; discriminate|reflexivity].
Qed.

Lemma key_no_eq b : no_char "=" b = true -> no_char "=" (ok_key b) = true /\ no_char "=" (try_key b) = true.
Proof. intros H. unfold ok_key, try_key. rewrite !no_char_app, H. auto. Qed.
Lemma key_no_nl b : no_char nl b = true -> no_char nl (ok_key b) = true /\ no_char nl (try_key b) = true.
Proof. intros H. unfold ok_key, try_key. rewrite !no_char_app, H. auto. Qed.

Lemma ok_try_neq a b : ok_key a <> try_key b.
Proof.
  unfold ok_key, try_key. intros H.
  assert (Hr : forall x y, (x ++ "_OK")%string = (y ++ "_TRY")%string -> False).
  { clear. intros x. induction x as [|c x IH]; intros y H.
    - destruct y as [|d y]; [discriminate|]. apply (f_equal String.length) in H. cbn in H.
      rewrite length_app_s in H. cbn in H. lia.
    - destruct y as [|d y].
      + cbn in H. inversion H as [[Hc Hx]]. apply (f_equal String.length) in Hx. rewrite length_app_s in Hx.
        cbn in Hx. destruct x as [|? [|? ?]]; cbn in *; try discriminate; lia.
      + cbn in H. inversion H. eauto. }
  eauto.
Qed.

Lemma ok_key_order b : ok_key b <> "ORDER".
Proof.
  unfold ok_key. intros H. pose proof (f_equal String.length H) as Hl. rewrite length_app_s in Hl. cbn in Hl.
  destruct b as [|x [|y [|z b]]]; cbn in Hl; try lia. cbn in H. inversion H.
Qed.
Lemma try_key_order b : try_key b <> "ORDER".
Proof.
  unfold try_key. intros H. pose proof (f_equal String.length H) as Hl. rewrite length_app_s in Hl. cbn in Hl.
  destruct b as [|x [|y b]]; cbn in Hl; try lia. cbn in H. inversion H.
Qed.
Lemma ok_key_inj a b : ok_key a = ok_key b -> a = b.
Proof. apply app_inv_r. Qed.
Lemma try_key_inj a b : try_key a = try_key b -> a = b.
Proof. apply app_inv_r. Qed.

(** effect of set_state *)
Lemma set_state_env e b good : ok_bootname b = true ->
  editenv_set e (grub_set_state b good) =
  genv_set (genv_set e (ok_key b) (if good then "1" else "0")) (try_key b) "0".
Proof.
  intros Hb. apply ok_bootname_spec in Hb as (_ & He & _). destruct (key_no_eq b He) as [Ho Ht].
  unfold editenv_set, grub_set_state.
  assert (E1 : forall x, (b ++ String "_" (String "O" (String "K" (String "=" x))) = ok_key b ++ "=" ++ x)%string).
  { intros x. unfold ok_key. now rewrite app_assoc_s. }
  assert (E2 : forall x, (b ++ String "_" (String "T" (String "R" (String "Y" (String "=" x)))) = try_key b ++ "=" ++ x)%string).
  { intros x. unfold try_key. now rewrite app_assoc_s. }
  destruct good; cbn [fold_left]; rewrite E1, E2, !assign_spec by assumption; reflexivity.
Qed.

Lemma set_primary_env e slots s b : ok_bootname b = true ->
  editenv_set e (grub_set_primary slots s b) =
  genv_set (genv_set (genv_set e (ok_key b) "1") (try_key b) "0") "ORDER" (order_primary slots s b).
Proof.
  intros Hb. change (editenv_set e (grub_set_primary slots s b)) with
    (editenv_assign (editenv_set e (grub_set_state b true)) ("ORDER" ++ "=" ++ order_primary slots s b)).
  rewrite set_state_env by assumption. now rewrite assign_spec.
Qed.

Lemma wf_set_state e b good : wf_genv e -> ok_bootname b = true -> wf_genv (editenv_set e (grub_set_state b good)).
Proof.
  intros Hwf Hb. rewrite set_state_env by assumption. apply ok_bootname_spec in Hb as (_ & He & Hn).
  destruct (key_no_eq b He), (key_no_nl b Hn). apply wf_set; auto. apply wf_set; auto. now destruct good.
Qed.

Definition boot_names_ok (slots : list slot) : Prop :=
  forall t x, In t slots -> sl_bootname t = Some x -> ok_bootname x = true.

Lemma order_words_clean slots s b : ok_bootname b = true -> boot_names_ok slots ->
  Forall (fun w => clean_word w = true) (order_primary_words slots s b).
Proof.
  intros Hb Hall. constructor; [apply ok_bootname_spec, Hb|].
  apply Forall_forall. intros x Hx. apply in_flat_map in Hx as (t & Ht & Hx).
  destruct (same_slot t s); [destruct Hx|]. destruct (sl_bootname t) eqn:Et; [|destruct Hx].
  destruct Hx as [<-|[]]. specialize (Hall _ _ Ht Et). now apply ok_bootname_spec in Hall.
Qed.

Lemma join_no_nl l : Forall (fun w => clean_word w = true) l -> no_char nl (join " " l) = true.
Proof.
  induction 1 as [|w l Hw Hl IH]; [reflexivity|].
  assert (Hn : no_char nl w = true).
  { apply clean_word_spec in Hw as [_ H1]. revert H1. apply all_chars_impl.
    intros c Hc. destruct (Ascii.eqb_spec c nl); [subst; discriminate|reflexivity]. }
  destruct l as [|w' l']; [assumption|].
  change (join " " (w :: w' :: l')) with (w ++ " " ++ join " " (w' :: l'))%string.
  rewrite !no_char_app, Hn, IH. reflexivity.
Qed.

Lemma gready_keys e b o t : gvar e (ok_key b) = Some o -> gvar e (try_key b) = Some t ->
  gready e b = ok_try_good (chomp o) (chomp t).
Proof. unfold gready, ok_key, try_key, ok_try_good. now intros -> ->. Qed.

Lemma grub_get_state_spec e b : wf_genv e -> ok_bootname b = true ->
  grub_get_state (Some (editenv_list e)) b =
  match gvar e "ORDER" with
  | None => Err
  | Some _ => if in_dec string_dec b (gorder e) then
                match gvar e (ok_key b), gvar e (try_key b) with
                | Some _, Some _ => Ok (gready e b)
                | _, _ => Err
                end
              else Ok false
  end.
Proof.
  intros Hwf Hb. apply ok_bootname_spec in Hb as (Hc & He & Hn).
  destruct (key_no_eq b He) as [Ho Ht]. pose proof (clean_word_spec b Hc) as [Hne _].
  unfold grub_get_state. rewrite grub_get_spec by (auto; reflexivity).
  destruct (gvar e "ORDER") as [v|] eqn:Ev; cbn [bind]; [|reflexivity].
  assert (Hin : In b (g_strsplit " " (chomp v)) <-> In b (gorder e)).
  { unfold gorder. rewrite Ev, filter_In.
    assert (Hx : negb (String.eqb b "") = true) by (apply negb_true_iff, String.eqb_neq, Hne).
    rewrite Hx. unfold g_strsplit. destruct (chomp v); [cbn; intuition congruence|tauto]. }
  destruct (existsb (fun w => String.eqb w b) (g_strsplit " " (chomp v))) eqn:Ex.
  - apply existsb_exists in Ex as (w & Hw & Heq). apply String.eqb_eq in Heq; subst w.
    destruct (in_dec string_dec b (gorder e)) as [_|Hno]; [|tauto].
    rewrite !grub_get_spec by assumption. destruct (gvar e (ok_key b)) eqn:E1; cbn [bind]; [|reflexivity].
    destruct (gvar e (try_key b)) eqn:E2; cbn [bind]; [|reflexivity].
    now rewrite (gready_keys _ _ _ _ E1 E2).
  - destruct (in_dec string_dec b (gorder e)) as [Hyes|_]; [|reflexivity].
    apply Hin in Hyes. assert (existsb (fun w => String.eqb w b) (g_strsplit " " (chomp v)) = true); [|congruence].
    apply existsb_exists. exists b. now rewrite String.eqb_refl.
Qed.

Lemma not_good_neg a b : negb (strtoull0 a =? 1)%N || (0 <? strtoull0 b)%N = negb (ok_try_good a b).
Proof. unfold ok_try_good. destruct (strtoull0 a =? 1)%N; cbn; [|reflexivity]. destruct (strtoull0 b); reflexivity. Qed.

Lemma grub_find_slot_ok e w slots o : wf_genv e -> no_char "=" w = true ->
  grub_find_slot (Some (editenv_list e)) w slots = Ok o ->
  match o with
  | Some s => In s slots /\ sl_bootname s = Some w /\ gready e w = true
  | None => (exists s, In s slots /\ sl_bootname s = Some w) -> gready e w = false
  end.
Proof.
  intros Hwf Hw. destruct (key_no_eq w Hw) as [Ho Ht].
  revert o; induction slots as [|s ss IH]; intros o H; cbn [grub_find_slot] in H.
  - inversion H; subst. intros (s & [] & _).
  - unfold bootname_is in H. destruct (sl_bootname s) as [b|] eqn:Eb.
    + destruct (String.eqb_spec w b) as [->|Hne].
      * rewrite !grub_get_spec in H by assumption.
        destruct (gvar e (ok_key b)) as [v|] eqn:Ev; cbn [bind] in H; [|discriminate].
        destruct (gvar e (try_key b)) as [t|] eqn:Et; cbn [bind] in H; [|discriminate].
        rewrite not_good_neg in H. rewrite (gready_keys _ _ _ _ Ev Et) in *.
        destruct (ok_try_good (chomp v) (chomp t)) eqn:Eg; cbn [negb] in H.
        -- inversion H; subst. auto using in_eq.
        -- specialize (IH _ H). destruct o as [s'|]; [|auto].
           destruct IH as (_ & _ & IH). discriminate.
      * specialize (IH _ H). destruct o as [s'|].
        -- destruct IH as (? & ? & ?). repeat split; auto. now right.
        -- intros (s' & [->|Hin] & Hs'); [congruence|]. apply IH. eauto.
    + specialize (IH _ H). destruct o as [s'|].
      * destruct IH as (? & ? & ?). repeat split; auto. now right.
      * intros (s' & [->|Hin] & Hs'); [congruence|]. apply IH. eauto.
Qed.

(** words of the order are only looked up when they are the bootname of a slot *)
Lemma grub_find_slot_none e w slots :
  (forall t, In t slots -> sl_bootname t <> Some w) -> grub_find_slot e w slots = Ok None.
Proof.
  induction slots as [|s ss IH]; intros H; cbn [grub_find_slot]; [reflexivity|].
  unfold bootname_is. destruct (sl_bootname s) as [b|] eqn:Eb.
  - destruct (String.eqb_spec w b) as [->|_]; [exfalso; apply (H s); [now left|assumption]|].
    apply IH. intros t Ht. apply H. now right.
  - apply IH. intros t Ht. apply H. now right.
Qed.

Lemma slot_with_bootname_dec (slots : list slot) (w : string) :
  (exists t, In t slots /\ sl_bootname t = Some w) \/ (forall t, In t slots -> sl_bootname t <> Some w).
Proof.
  induction slots as [|s ss [(t & Ht & Hb)|IH]].
  - right. intros t [].
  - left. exists t. split; [now right|assumption].
  - destruct (sl_bootname s) as [b|] eqn:E.
    + destruct (string_dec b w) as [->|Hn].
      * left. exists s. split; [now left|assumption].
      * right. intros t [<-|Ht]; [congruence|auto].
    + right. intros t [<-|Ht]; [congruence|auto].
Qed.

Lemma grub_first_ok e slots ws s : wf_genv e -> boot_names_ok slots ->
  grub_first (Some (editenv_list e)) slots ws = Ok s ->
  In s slots /\
  exists pre w post, ws = pre ++ w :: post /\ sl_bootname s = Some w /\ gready e w = true /\
    Forall (fun m => (exists t, In t slots /\ sl_bootname t = Some m) -> gready e m = false) pre.
Proof.
  intros Hwf Hall. revert s; induction ws as [|w ws IH]; intros s H; cbn [grub_first] in H; [discriminate|].
  destruct (slot_with_bootname_dec slots w) as [(t & Ht & Hb)|Hno].
  - assert (Hw : no_char "=" w = true) by (apply ok_bootname_spec; eauto).
    destruct (grub_find_slot _ w slots) as [o| |] eqn:Ef; cbn [bind] in H; try discriminate.
    pose proof (grub_find_slot_ok _ _ _ _ Hwf Hw Ef) as Hof. destruct o as [t'|].
    + inversion H; subst t'. destruct Hof as (H1 & H2 & H3). split; [assumption|].
      exists [], w, ws. repeat split; auto.
    + destruct (IH _ H) as (H1 & pre & w' & post & -> & H2 & H3 & H4). split; [assumption|].
      exists (w :: pre), w', post. repeat split; auto.
  - rewrite grub_find_slot_none in H by assumption. cbn [bind] in H.
    destruct (IH _ H) as (H1 & pre & w' & post & -> & H2 & H3 & H4). split; [assumption|].
    exists (w :: pre), w', post. repeat split; auto. constructor; [|assumption].
    intros (t & Ht & Hb). exfalso. now apply (Hno t).
Qed.

(** *** final statements *)

Lemma gorder_primary e slots s b : ok_bootname b = true -> boot_names_ok slots ->
  gorder (editenv_set e (grub_set_primary slots s b)) = order_primary_words slots s b.
Proof.
  intros Hb Hall. rewrite set_primary_env by assumption. unfold gorder. rewrite gvar_set_eq.
  pose proof (order_words_clean slots s b Hb Hall) as HF. unfold order_primary.
  rewrite chomp_join_clean by assumption. rewrite split_on_join; [|discriminate|].
  - apply filter_all. eapply Forall_impl; [|exact HF]. intros a Ha.
    apply clean_word_spec in Ha as [Ha _]. now apply negb_true_iff, String.eqb_neq.
  - eapply Forall_impl; [|exact HF]. intros a. apply clean_no_space.
Qed.

Lemma grub_set_primary_ok : forall e slots s b,
  wf_genv e -> unique_names slots -> unique_bootnames slots -> boot_names_ok slots ->
  In s slots -> sl_bootname s = Some b ->
  let e' := editenv_set e (grub_set_primary slots s b) in
  grub_get_primary (Some (editenv_list e')) slots = Ok s /\
  grub_get_state (Some (editenv_list e')) b = Ok true /\
  gboots e' b /\
  (exists others, gorder e' = b :: others /\
     forall x, In x others <-> (x <> b /\ exists t, In t slots /\ sl_bootname t = Some x)) /\
  (forall k, k <> "ORDER" -> k <> (b ++ "_OK")%string -> k <> (b ++ "_TRY")%string -> gvar e' k = gvar e k).
Proof.
  intros e slots s b Hwf Hun Hub Hall Hin Hb e'.
  assert (Hbn : ok_bootname b = true) by eauto.
  pose proof (ok_bootname_spec b Hbn) as (Hc & He & Hn). pose proof (clean_word_spec b Hc) as [Hne _].
  destruct (key_no_eq b He) as [Hok Htk]. destruct (key_no_nl b Hn) as [Hnok Hntk].
  pose proof (order_words_clean slots s b Hbn Hall) as HF.
  assert (Hwf' : wf_genv e').
  { unfold e'. rewrite set_primary_env by assumption.
    apply wf_set; [apply wf_set; [apply wf_set|..]|..]; auto. now apply join_no_nl. }
  assert (Hord : gorder e' = order_primary_words slots s b) by now apply gorder_primary.
  assert (Hv1 : gvar e' (ok_key b) = Some "1").
  { unfold e'. rewrite set_primary_env by assumption.
    rewrite gvar_set_neq by (intros H; symmetry in H; now apply (ok_key_order b)).
    rewrite gvar_set_neq by (intros H; symmetry in H; now apply ok_try_neq in H). apply gvar_set_eq. }
  assert (Hv2 : gvar e' (try_key b) = Some "0").
  { unfold e'. rewrite set_primary_env by assumption.
    rewrite gvar_set_neq by (intros H; symmetry in H; now apply (try_key_order b)). apply gvar_set_eq. }
  assert (Hv3 : gvar e' "ORDER" = Some (order_primary slots s b)).
  { unfold e'. rewrite set_primary_env by assumption. apply gvar_set_eq. }
  assert (Hr : gready e' b = true) by (now rewrite (gready_keys _ _ _ _ Hv1 Hv2)).
  split; [|split; [|split; [|split]]].
  - unfold grub_get_primary. rewrite grub_get_spec by (auto; reflexivity). rewrite Hv3. cbn [bind].
    unfold order_primary. destruct (gsplit_written b (tl (order_primary_words slots s b)) Hc) as [post Hp].
    cbn [tl order_primary_words] in Hp |- *. unfold order_primary_words. rewrite Hp. clear Hp.
    cbn [grub_first].
    assert (Hf : grub_find_slot (Some (editenv_list e')) b slots = Ok (Some s)).
    { assert (Huq : forall t, In t slots -> sl_bootname t = Some b -> t = s).
      { intros t Ht Htb. symmetry. eapply unique_slot; eauto. }
      clear - Hwf' Hok Htk Hv1 Hv2 Hin Hb Huq. clearbody e'.
      induction slots as [|x l IH]; [destruct Hin|]. cbn [grub_find_slot].
      unfold bootname_is. destruct (sl_bootname x) as [bx|] eqn:Ex.
      - destruct (String.eqb_spec b bx) as [<-|Hnb].
        + rewrite !grub_get_spec by assumption. rewrite Hv1, Hv2. cbn [bind]. cbn.
          f_equal. f_equal. apply Huq; [now left|assumption].
        + destruct Hin as [->|Hin]; [congruence|]. apply IH; auto. intros t Ht. apply Huq. now right.
      - destruct Hin as [->|Hin]; [congruence|]. apply IH; auto. intros t Ht. apply Huq. now right. }
    rewrite Hf. reflexivity.
  - rewrite grub_get_state_spec by assumption. rewrite Hv3, Hv1, Hv2, Hr, Hord.
    destruct in_dec as [_|Hno]; [reflexivity|]. exfalso. apply Hno. now left.
  - exists [], (tl (order_primary_words slots s b)). rewrite Hord. repeat split; auto.
  - eexists. split; [exact Hord|]. intros x. rewrite in_flat_map. split.
    + intros (t & Ht & Hx). unfold same_slot in Hx.
      destruct (String.eqb_spec (sl_name t) (sl_name s)) as [Heq|Hnq]; [destruct Hx|].
      destruct (sl_bootname t) as [y|] eqn:Et; [|destruct Hx]. destruct Hx as [->|[]]. split; [|eauto].
      intros ->. apply Hnq. eapply Hub; eauto.
    + intros (Hx & t & Ht & Htb). exists t. split; [assumption|]. unfold same_slot.
      destruct (String.eqb_spec (sl_name t) (sl_name s)) as [Heq|Hnq]; [|rewrite Htb; now left].
      exfalso. assert (t = s).
      { clear - Hun Ht Hin Heq. unfold unique_names in Hun. induction slots as [|y l IH]; [destruct Ht|].
        cbn in Hun. inversion Hun as [|? ? Hy Hl]; subst. destruct Ht as [->|Ht], Hin as [->|Hin]; auto.
        - exfalso. apply Hy. rewrite Heq. now apply in_map.
        - exfalso. apply Hy. rewrite <- Heq. now apply in_map. }
      subst. congruence.
  - intros k H1 H2 H3. unfold e'. rewrite set_primary_env by assumption.
    rewrite !gvar_set_neq by (unfold ok_key, try_key; congruence). reflexivity.
Qed.

Lemma grub_mark_bad_ok : forall e b,
  wf_genv e -> ok_bootname b = true ->
  let e' := editenv_set e (grub_set_state b false) in
  ~ gboots e' b /\
  grub_get_state (Some (editenv_list e')) b <> Ok true /\
  (forall slots t, boot_names_ok slots ->
     grub_get_primary (Some (editenv_list e')) slots = Ok t -> sl_bootname t <> Some b) /\
  gorder e' = gorder e /\
  (forall k, k <> (b ++ "_OK")%string -> k <> (b ++ "_TRY")%string -> gvar e' k = gvar e k).
Proof.
  intros e b Hwf Hbn e'. pose proof (ok_bootname_spec b Hbn) as (Hc & He & Hn).
  destruct (key_no_eq b He) as [Hok Htk].
  assert (Hwf' : wf_genv e') by now apply wf_set_state.
  assert (Hv1 : gvar e' (ok_key b) = Some "0").
  { unfold e'. rewrite set_state_env by assumption.
    rewrite gvar_set_neq by (intros H; symmetry in H; now apply ok_try_neq in H). apply gvar_set_eq. }
  assert (Hv2 : gvar e' (try_key b) = Some "0").
  { unfold e'. rewrite set_state_env by assumption. apply gvar_set_eq. }
  assert (Hr : gready e' b = false) by (now rewrite (gready_keys _ _ _ _ Hv1 Hv2)).
  assert (Hfr : forall k, k <> (b ++ "_OK")%string -> k <> (b ++ "_TRY")%string -> gvar e' k = gvar e k).
  { intros k H2 H3. unfold e'. rewrite set_state_env by assumption.
    rewrite !gvar_set_neq by (unfold ok_key, try_key; congruence). reflexivity. }
  split; [|split; [|split; [|split]]]; [| | | |exact Hfr].
  - intros (pre & post & _ & H & _). congruence.
  - rewrite grub_get_state_spec by assumption. destruct (gvar e' "ORDER"); [|discriminate].
    destruct in_dec; [|discriminate]. rewrite Hv1, Hv2, Hr. discriminate.
  - intros slots t Hall H. unfold grub_get_primary in H. rewrite grub_get_spec in H by (auto; reflexivity).
    destruct (gvar e' "ORDER"); [|discriminate]. cbn [bind] in H.
    apply grub_first_ok in H as (_ & pre & w & post & _ & Hw & Hg & _); auto. congruence.
  - unfold gorder. rewrite Hfr; [reflexivity| |].
    + intros H. symmetry in H. now apply (ok_key_order b).
    + intros H. symmetry in H. now apply (try_key_order b).
Qed.

Lemma grub_mark_good_ok : forall e b,
  wf_genv e -> ok_bootname b = true -> In b (gorder e) ->
  let e' := editenv_set e (grub_set_state b true) in
  grub_get_state (Some (editenv_list e')) b = Ok true /\ gorder e' = gorder e /\
  (forall k, k <> (b ++ "_OK")%string -> k <> (b ++ "_TRY")%string -> gvar e' k = gvar e k).
Proof.
  intros e b Hwf Hbn Hin e'. pose proof (ok_bootname_spec b Hbn) as (Hc & He & Hn).
  destruct (key_no_eq b He) as [Hok Htk].
  assert (Hwf' : wf_genv e') by now apply wf_set_state.
  assert (Hv1 : gvar e' (ok_key b) = Some "1").
  { unfold e'. rewrite set_state_env by assumption.
    rewrite gvar_set_neq by (intros H; symmetry in H; now apply ok_try_neq in H). apply gvar_set_eq. }
  assert (Hv2 : gvar e' (try_key b) = Some "0").
  { unfold e'. rewrite set_state_env by assumption. apply gvar_set_eq. }
  assert (Hr : gready e' b = true) by (now rewrite (gready_keys _ _ _ _ Hv1 Hv2)).
  assert (Hfr : forall k, k <> (b ++ "_OK")%string -> k <> (b ++ "_TRY")%string -> gvar e' k = gvar e k).
  { intros k H2 H3. unfold e'. rewrite set_state_env by assumption.
    rewrite !gvar_set_neq by (unfold ok_key, try_key; congruence). reflexivity. }
  assert (Ho : gvar e' "ORDER" = gvar e "ORDER").
  { apply Hfr; intros H; symmetry in H; [now apply (ok_key_order b)|now apply (try_key_order b)]. }
  assert (Hg : gorder e' = gorder e) by (unfold gorder; now rewrite Ho).
  split; [|split; [exact Hg|exact Hfr]].
  rewrite grub_get_state_spec by assumption. rewrite Hv1, Hv2, Hr, Ho, Hg.
  destruct in_dec; [|contradiction]. destruct (gvar e "ORDER") eqn:E; [reflexivity|].
  unfold gorder in Hin. rewrite E in Hin. destruct Hin.
Qed.

Lemma grub_get_primary_ok : forall e slots s,
  wf_genv e -> boot_names_ok slots ->
  (forall n, In n (gorder e) -> exists t, In t slots /\ sl_bootname t = Some n) ->
  grub_get_primary (Some (editenv_list e)) slots = Ok s ->
  In s slots /\ exists b, sl_bootname s = Some b /\ gboots e b.
Proof.
  intros e slots s Hwf Hall Hcov H. unfold grub_get_primary in H. rewrite grub_get_spec in H by (auto; reflexivity).
  destruct (gvar e "ORDER") as [v|] eqn:Ev; cbn [bind] in H; [|discriminate].
  apply grub_first_ok in H as (Hin & pre & w & post & Hs & Hb & Hl & Hf); auto.
  split; [assumption|]. exists w. split; [assumption|].
  assert (Hw : negb (String.eqb w "") = true).
  { apply negb_true_iff, String.eqb_neq. intros ->. specialize (Hall _ _ Hin Hb). discriminate. }
  assert (Ho : gorder e = filter (fun w => negb (String.eqb w "")) pre
               ++ w :: filter (fun w => negb (String.eqb w "")) post).
  { unfold gorder. rewrite Ev, <- filter_gsplit, Hs. now rewrite filter_split. }
  eexists _, _. split; [exact Ho|]. split; [assumption|].
  apply Forall_forall. intros m Hm. apply filter_In in Hm as [Hm1 Hm2].
  rewrite Forall_forall in Hf. apply Hf; [assumption|]. apply Hcov. rewrite Ho.
  apply in_or_app. left. apply filter_In. auto.
Qed.
