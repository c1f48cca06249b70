From Verif Require Import Base BaseLemmas Slot Uboot UbootSpec.

Lemma newline_space : g_isspace newline = true.
Proof. reflexivity. Qed.

Lemma key_eq k x : (k ++ String "=" x = (k ++ "=") ++ x)%string.
Proof. now rewrite app_assoc_s. Qed.

Lemma env_get_honest rd e k v : honest rd e ->
  uboot_env_get rd k = Ok v -> val_of e k = Some v.
Proof.
  intros Hh. unfold uboot_env_get. destruct (rd k) as [out|] eqn:E; [|discriminate].
  apply Hh in E. unfold fw_printenv, val_of in *. destruct (e k) as [w|]; [|discriminate].
  cbn [option_map] in *. inversion E; subst out; clear E.
  intros H. 
  rewrite (key_eq k (w ++ String newline "")) in H.
  cbv zeta in H. rewrite has_prefix_app, sdrop_app in H. inversion H. now rewrite chomp_newline.
Qed.

Lemma env_get_direct e k :
  uboot_env_get (fw_printenv e) k = match val_of e k with Some v => Ok v | None => Err end.
Proof.
  unfold uboot_env_get, fw_printenv, val_of. destruct (e k) as [w|]; cbn [option_map]; [|reflexivity].
  replace (k ++ "=" ++ w ++ String newline "")%string
    with ((k ++ "=") ++ (w ++ String newline ""))%string by (now rewrite app_assoc_s).
  cbv zeta. rewrite has_prefix_app, sdrop_app. now rewrite chomp_newline.
Qed.

Lemma honest_direct e : honest (fw_printenv e) e.
Proof. intros k out H; exact H. Qed.

Lemma left_key_inj a b : left_key a = left_key b -> a = b.
Proof. unfold left_key. intros H. apply app_inv_l in H. now apply app_inv_r in H. Qed.

Lemma left_key_order b : left_key b <> "BOOT_ORDER".
Proof.
  unfold left_key. intros H. change "BOOT_ORDER" with ("BOOT_" ++ "ORDER")%string in H.
  apply app_inv_l in H.
  pose proof (f_equal String.length H) as Hl. rewrite length_app_s in Hl. cbn in Hl.
  assert (b = "") as -> by (destruct b; [reflexivity|cbn in Hl; lia]). discriminate.
Qed.

(** the words rauc looks at, compared with the specification's order *)
Lemma in_gsplit_order e v b : val_of e "BOOT_ORDER" = Some v -> b <> "" ->
  (In b (g_strsplit " " v) <-> In b (order_of e)).
Proof.
  intros Hv Hb. unfold order_of. rewrite Hv. rewrite filter_In.
  assert (Hn : negb (String.eqb b "") = true) by (apply negb_true_iff, String.eqb_neq, Hb).
  rewrite Hn. unfold g_strsplit. destruct v.
  - cbn. intuition congruence.
  - tauto.
Qed.

Lemma filter_gsplit v :
  filter (fun w => negb (String.eqb w "")) (g_strsplit " " v)
  = filter (fun w => negb (String.eqb w "")) (split_on " " v).
Proof. destruct v; reflexivity. Qed.

Lemma filter_filter {A} (p q : A -> bool) l :
  filter p (filter q l) = filter (fun x => p x && q x) l.
Proof.
  induction l as [|a l IH]; cbn; [reflexivity|].
  destruct (q a) eqn:Eq; cbn; destruct (p a); cbn; congruence.
Qed.

Lemma other_words_order e v b : val_of e "BOOT_ORDER" = Some v ->
  other_words b v = filter (fun w => negb (String.eqb w b)) (order_of e).
Proof.
  intros Hv. unfold order_of, other_words. rewrite Hv. rewrite <- filter_gsplit. now rewrite filter_filter.
Qed.

(** *** get_state *)
Lemma get_state_spec e b : b <> "" ->
  uboot_get_state (fw_printenv e) b =
  match val_of e "BOOT_ORDER" with
  | None => Err
  | Some _ =>
      if in_dec string_dec b (order_of e) then
        match val_of e (left_key b) with
        | None => Err
        | Some _ => Ok (0 <? left_of e b)%N
        end
      else Ok false
  end.
Proof.
  intros Hb. unfold uboot_get_state. rewrite env_get_direct.
  destruct (val_of e "BOOT_ORDER") as [v|] eqn:Ev; cbn [bind]; [|reflexivity].
  pose proof (in_gsplit_order e v b Ev Hb) as Hin.
  destruct (existsb (fun w => String.eqb w b) (g_strsplit " " v)) eqn:Ex.
  - apply existsb_exists in Ex as (w & Hw & He). apply String.eqb_eq in He; subst w.
    destruct (in_dec string_dec b (order_of e)) as [_|Hno]; [|tauto].
    rewrite env_get_direct. unfold left_of. fold (left_key b).
    destruct (val_of e (left_key b)); reflexivity.
  - destruct (in_dec string_dec b (order_of e)) as [Hyes|_]; [|reflexivity].
    exfalso. apply Hin in Hyes.
    assert (existsb (fun w => String.eqb w b) (g_strsplit " " v) = true); [|congruence].
    apply existsb_exists. exists b. now rewrite String.eqb_refl.
Qed.

(** *** get_primary *)
Lemma find_bootable_ok e w slots o :
  find_bootable (fw_printenv e) w slots = Ok o ->
  match o with
  | Some s => In s slots /\ sl_bootname s = Some w /\ (0 < left_of e w)%N
  | None => (exists s, In s slots /\ sl_bootname s = Some w) -> left_of e w = 0%N
  end.
Proof.
  revert o; induction slots as [|s ss IH]; intros o H; cbn [find_bootable] in H.
  - inversion H; subst. intros (s & [] & _).
  - unfold bootname_is in H. destruct (sl_bootname s) as [b|] eqn:Eb.
    + destruct (String.eqb_spec w b) as [->|Hne].
      * rewrite env_get_direct in H. unfold left_of. fold (left_key b).
        destruct (val_of e (left_key b)) as [v|] eqn:Ev; cbn [bind] in H; [|discriminate].
        destruct (0 <? g_ascii_strtoull 16 v)%N eqn:Ez.
        -- inversion H; subst. split; [now left|]. split; [assumption|]. now apply N.ltb_lt.
        -- apply N.ltb_ge in Ez. specialize (IH _ H). unfold left_of in IH. fold (left_key b) in IH.
           rewrite Ev in IH. destruct o as [s'|].
           ++ destruct IH as (? & ? & ?). lia.
           ++ intros _. lia.
      * specialize (IH _ H). destruct o as [s'|].
        -- destruct IH as (? & ? & ?). repeat split; auto. now right.
        -- intros (s' & [->|Hin] & Hs'); [congruence|]. apply IH. eauto.
    + specialize (IH _ H). destruct o as [s'|].
      * destruct IH as (? & ? & ?). repeat split; auto. now right.
      * intros (s' & [->|Hin] & Hs'); [congruence|]. apply IH. eauto.
Qed.

Lemma first_bootable_ok e slots ws s :
  first_bootable (fw_printenv e) slots ws = Ok s ->
  In s slots /\
  exists pre w post, ws = pre ++ w :: post /\ sl_bootname s = Some w /\ (0 < left_of e w)%N /\
    Forall (fun m => (exists t, In t slots /\ sl_bootname t = Some m) -> left_of e m = 0%N) pre.
Proof.
  revert s; induction ws as [|w ws IH]; intros s H; cbn [first_bootable] in H; [discriminate|].
  destruct (find_bootable (fw_printenv e) w slots) as [o| |] eqn:Ef; cbn [bind] in H; try discriminate.
  pose proof (find_bootable_ok _ _ _ _ Ef) as Ho. destruct o as [t|].
  - inversion H; subst t. destruct Ho as (H1 & H2 & H3). split; [assumption|].
    exists [], w, ws. repeat split; auto.
  - destruct (IH _ H) as (H1 & pre & w' & post & -> & H2 & H3 & H4). split; [assumption|].
    exists (w :: pre), w', post. repeat split; auto.
Qed.

Lemma filter_split {A} (p : A -> bool) pre x post : p x = true ->
  filter p (pre ++ x :: post) = filter p pre ++ x :: filter p post.
Proof. intros H. rewrite filter_app. cbn. now rewrite H. Qed.

Lemma get_primary_boots e slots s :
  (forall n, In n (order_of e) -> exists t, In t slots /\ sl_bootname t = Some n) ->
  (forall t, In t slots -> sl_bootname t <> Some "") ->
  uboot_get_primary (fw_printenv e) slots = Ok s ->
  In s slots /\ exists b, sl_bootname s = Some b /\ boots e b.
Proof.
  intros Hall Hne H. unfold uboot_get_primary in H. rewrite env_get_direct in H.
  destruct (val_of e "BOOT_ORDER") as [v|] eqn:Ev; cbn [bind] in H; [|discriminate].
  apply first_bootable_ok in H as (Hin & pre & w & post & Hs & Hb & Hl & Hf).
  split; [assumption|]. exists w. split; [assumption|].
  assert (Hw : negb (String.eqb w "") = true).
  { apply negb_true_iff, String.eqb_neq. intros ->. now apply (Hne s). }
  assert (Ho : order_of e = filter (fun w => negb (String.eqb w "")) pre
               ++ w :: filter (fun w => negb (String.eqb w "")) post).
  { unfold order_of. rewrite Ev, <- filter_gsplit, Hs. now rewrite filter_split. }
  exists (filter (fun w => negb (String.eqb w "")) pre),
         (filter (fun w => negb (String.eqb w "")) post).
  split; [assumption|]. split; [assumption|].
  apply Forall_forall. intros m Hm. apply filter_In in Hm as [Hm1 Hm2].
  rewrite Forall_forall in Hf. apply Hf; [assumption|]. apply Hall. rewrite Ho.
  apply in_or_app. left. apply filter_In. auto.
Qed.

(** *** reading back what was written *)
Lemma val_upd_eq del e k v : v <> "" -> val_of (fw_setenv del e (k, v)) k = Some (chomp v).
Proof.
  intros Hv. unfold val_of, fw_setenv. cbn [fst snd]. rewrite upd_eq.
  apply String.eqb_neq in Hv. rewrite Hv, andb_false_r. reflexivity.
Qed.

Lemma val_upd_neq del e k v k' : k <> k' -> val_of (fw_setenv del e (k, v)) k' = val_of e k'.
Proof. intros H. unfold val_of, fw_setenv. cbn [fst snd]. now rewrite upd_neq. Qed.

Lemma left_upd_eq del e b n : (n < 2 ^ 64)%N ->
  left_of (fw_setenv del e (left_key b, print_num 16 n)) b = n.
Proof.
  intros Hn. unfold left_of. fold (left_key b). rewrite val_upd_eq by apply print_num_nonempty.
  rewrite chomp_clean by (apply print_num_clean; lia). apply strtoull_print; [now right|assumption].
Qed.

Lemma left_upd_neq del e b x m : m <> b ->
  left_of (fw_setenv del e (left_key b, x)) m = left_of e m.
Proof.
  intros Hm. unfold left_of. fold (left_key m). rewrite val_upd_neq; [reflexivity|].
  intros H. apply left_key_inj in H. congruence.
Qed.

Lemma left_upd_order del e x m : left_of (fw_setenv del e ("BOOT_ORDER", x)) m = left_of e m.
Proof.
  unfold left_of. fold (left_key m). rewrite val_upd_neq; [reflexivity|].
  intros H. now apply (left_key_order m).
Qed.

Lemma order_upd_left del e b x : order_of (fw_setenv del e (left_key b, x)) = order_of e.
Proof. unfold order_of. rewrite val_upd_neq; [reflexivity|]. apply left_key_order. Qed.

Lemma attempts_pos z : (0 < attempts_or_default z)%N.
Proof. unfold attempts_or_default. destruct (Z.leb_spec z 0); lia. Qed.

(** chomp only touches the end *)
Lemma chomp_app_clean w s : w <> "" -> all_chars (fun a => negb (g_isspace a)) w = true ->
  chomp (w ++ s) = (w ++ chomp s)%string.
Proof.
  intros Hw Ha. induction w as [|a w IH]; [congruence|]. cbn in Ha.
  apply andb_true_iff in Ha as [H1 H2]. apply negb_true_iff in H1.
  cbn [append chomp]. destruct w as [|b w].
  - cbn [append]. destruct (chomp s); [now rewrite H1|reflexivity].
  - rewrite IH by (try discriminate; assumption). reflexivity.
Qed.

Lemma chomp_cons c s : chomp (String c s) = "" \/ exists r, chomp (String c s) = String c r.
Proof. cbn. destruct (chomp s); [destruct (g_isspace c)|]; eauto. Qed.

Lemma order_of_written del e b ws : clean_word b = true ->
  exists post, order_of (fw_setenv del e ("BOOT_ORDER", join " " (b :: ws))) = b :: post.
Proof.
  intros Hc. pose proof (clean_no_space b Hc) as Hns. pose proof (clean_word_spec b Hc) as [Hne Hcl].
  unfold order_of. rewrite val_upd_eq.
  2:{ destruct ws; cbn [join]; destruct b; try congruence; discriminate. }
  assert (Hb : negb (String.eqb b "") = true) by (apply negb_true_iff, String.eqb_neq, Hne).
  destruct ws as [|w ws].
  - cbn [join]. rewrite chomp_clean by assumption. rewrite split_on_word by assumption.
    cbn [filter]. rewrite Hb. eauto.
  - change (join " " (b :: w :: ws)) with (b ++ String " " (join " " (w :: ws)))%string.
    rewrite chomp_app_clean by assumption.
    destruct (chomp_cons " " (join " " (w :: ws))) as [->|[r ->]].
    + rewrite app_nil_r_s, split_on_word by assumption. cbn [filter]. rewrite Hb. eauto.
    + rewrite split_on_cons by assumption. cbn [filter]. rewrite Hb. eauto.
Qed.

Lemma chomp_join_clean l : Forall (fun w => clean_word w = true) l -> chomp (join " " l) = join " " l.
Proof.
  induction l as [|w l IH]; intros HF; [reflexivity|]. inversion HF as [|? ? Hw Hl]; subst.
  destruct l as [|w' l']; [now apply chomp_clean|].
  specialize (IH Hl). apply clean_word_spec in Hw as [H1 H2].
  change (join " " (w :: w' :: l')) with (w ++ String " " (join " " (w' :: l')))%string.
  rewrite chomp_app_clean by assumption. f_equal.
  cbn [chomp]. rewrite IH. destruct (join " " (w' :: l')) eqn:E; [|reflexivity].
  exfalso. inversion Hl as [|? ? Hw' _]; subst. apply clean_word_spec in Hw' as [Hne _].
  destruct w'; [congruence|]. destruct l'; discriminate.
Qed.

Lemma join_nonempty l : l <> [] -> Forall (fun w => clean_word w = true) l -> join " " l <> "".
Proof.
  intros Hl HF. destruct l as [|w l]; [congruence|]. inversion HF as [|? ? Hw _]; subst.
  apply clean_word_spec in Hw as [Hne _]. destruct w; [congruence|]. destruct l; discriminate.
Qed.

Lemma filter_all {A} (p : A -> bool) l : Forall (fun x => p x = true) l -> filter p l = l.
Proof. induction 1 as [|x l H _ IH]; cbn; [reflexivity|]. now rewrite H, IH. Qed.

Lemma order_of_written_exact del e l : Forall (fun w => clean_word w = true) l ->
  order_of (fw_setenv del e ("BOOT_ORDER", join " " l)) = l.
Proof.
  intros HF. destruct l as [|w l].
  - unfold order_of, val_of, fw_setenv. cbn [fst snd join]. rewrite upd_eq. destruct del; reflexivity.
  - unfold order_of. rewrite val_upd_eq by (apply join_nonempty; [discriminate|assumption]).
    rewrite chomp_join_clean by assumption.
    rewrite split_on_join; [|discriminate|].
    + apply filter_all. eapply Forall_impl; [|exact HF]. intros a Ha.
      apply clean_word_spec in Ha as [Ha _]. now apply negb_true_iff, String.eqb_neq.
    + eapply Forall_impl; [|exact HF]. intros a. apply clean_no_space.
Qed.

Lemma Forall_filter {A} (P : A -> Prop) (p : A -> bool) l : Forall P l -> Forall P (filter p l).
Proof.
  rewrite !Forall_forall. intros H x Hx. apply filter_In in Hx as [Hx _]. auto.
Qed.

(** *** set_primary *)

Lemma attempts_bound z : (z < 2 ^ 31)%Z -> (attempts_or_default z < 2 ^ 64)%N.
Proof.
  intros Hz. unfold attempts_or_default. destruct (Z.leb_spec z 0) as [H|H].
  - reflexivity.
  - assert (Z.to_N z < 2 ^ 31)%N by (change (2 ^ 31)%N with (Z.to_N (2 ^ 31)); lia).
    eapply N.lt_trans; [eassumption|]. reflexivity.
Qed.

Lemma unique_slot slots s t b : unique_names slots -> unique_bootnames slots ->
  In s slots -> In t slots -> sl_bootname s = Some b -> sl_bootname t = Some b -> s = t.
Proof.
  intros Hu Hub Hs Ht Hsb Htb. pose proof (Hub s t b Hs Ht Hsb Htb) as Hn. clear Hub.
  unfold unique_names in Hu. induction slots as [|x l IH]; [destruct Hs|].
  cbn in Hu. inversion Hu as [|? ? Hx Hl]; subst.
  destruct Hs as [->|Hs], Ht as [->|Ht]; auto.
  - exfalso. apply Hx. rewrite Hn. now apply in_map.
  - exfalso. apply Hx. rewrite <- Hn. now apply in_map.
Qed.

Lemma first_bootable_head e slots ws s b :
  unique_names slots -> unique_bootnames slots -> In s slots -> sl_bootname s = Some b ->
  (0 < left_of e b)%N ->
  first_bootable (fw_printenv e) slots (b :: ws) = Ok s.
Proof.
  intros Hu Hub Hin Hb Hl. cbn [first_bootable].
  assert (Hf : find_bootable (fw_printenv e) b slots = Ok (Some s)).
  { assert (Huq : forall t, In t slots -> sl_bootname t = Some b -> t = s).
    { intros t Ht Htb. symmetry. eapply unique_slot; eauto. }
    clear Hu Hub. induction slots as [|x l IH]; [destruct Hin|]. cbn [find_bootable].
    unfold bootname_is. destruct (sl_bootname x) as [bx|] eqn:Ex.
    - destruct (String.eqb_spec b bx) as [<-|Hne].
      + unfold left_of in Hl. fold (left_key b) in Hl. rewrite env_get_direct.
        destruct (val_of e (left_key b)) as [v|]; [|lia]. cbn [bind].
        apply N.ltb_lt in Hl. rewrite Hl. f_equal. f_equal. apply Huq; [now left|assumption].
      + destruct Hin as [->|Hin]; [congruence|]. apply IH; auto. intros t Ht. apply Huq. now right.
    - destruct Hin as [->|Hin]; [congruence|]. apply IH; auto. intros t Ht. apply Huq. now right. }
  rewrite Hf. reflexivity.
Qed.


Lemma gsplit_written b ws : clean_word b = true ->
  exists post, g_strsplit " " (chomp (join " " (b :: ws))) = b :: post.
Proof.
  intros Hc. pose proof (clean_no_space b Hc) as Hns. pose proof (clean_word_spec b Hc) as [Hne Hcl].
  assert (Hg : forall s, g_strsplit " " (b ++ s) = split_on " " (b ++ s)).
  { intros s. destruct b; [congruence|reflexivity]. }
  destruct ws as [|w ws].
  - cbn [join]. rewrite chomp_clean by assumption. specialize (Hg ""). rewrite app_nil_r_s in Hg.
    rewrite Hg, split_on_word by assumption. eauto.
  - change (join " " (b :: w :: ws)) with (b ++ String " " (join " " (w :: ws)))%string.
    rewrite chomp_app_clean by assumption. rewrite Hg.
    destruct (chomp_cons " " (join " " (w :: ws))) as [->|[r ->]].
    + rewrite app_nil_r_s, split_on_word by assumption. eauto.
    + rewrite split_on_cons by assumption. eauto.
Qed.

Section SetPrimary.
  Context (del : bool) (e : env) (rd : reader) (slots : list slot) (cfg : Z) (s : slot) (b : string).
  Hypothesis (Hh : honest rd e) (Hun : unique_names slots) (Hub : unique_bootnames slots)
    (Hin : In s slots) (Hb : sl_bootname s = Some b) (Hc : clean_word b = true) (Hcfg : (cfg < 2 ^ 31)%Z).

  Let oc := match uboot_env_get rd "BOOT_ORDER" with Ok o => o | _ => order_primary slots s b end.

  Lemma set_primary_run :
    run del e (uboot_set_primary rd slots cfg s b) =
    fw_setenv del (fw_setenv del e (left_key b, print_num 16 (attempts_or_default cfg)))
      ("BOOT_ORDER", join " " (b :: other_words b oc)).
  Proof. reflexivity. Qed.

  Lemma set_primary_left : left_of (run del e (uboot_set_primary rd slots cfg s b)) b = attempts_or_default cfg.
  Proof. rewrite set_primary_run, left_upd_order. apply left_upd_eq. now apply attempts_bound. Qed.

  Lemma set_primary_boots : boots (run del e (uboot_set_primary rd slots cfg s b)) b.
  Proof.
    unfold boots. rewrite set_primary_left. rewrite set_primary_run.
    destruct (order_of_written del (fw_setenv del e (left_key b, print_num 16 (attempts_or_default cfg))) b
                (other_words b oc) Hc) as [post Hp].
    exists [], post. rewrite Hp. split; [reflexivity|]. split; [apply attempts_pos|constructor].
  Qed.

  Lemma set_primary_val_order : exists v,
    val_of (run del e (uboot_set_primary rd slots cfg s b)) "BOOT_ORDER" = Some v /\
    exists post, g_strsplit " " v = b :: post.
  Proof.
    rewrite set_primary_run. pose proof (clean_word_spec b Hc) as [Hne _].
    rewrite val_upd_eq by (destruct (other_words b oc), b; cbn [join]; try congruence; discriminate).
    eexists; split; [reflexivity|]. now apply gsplit_written.
  Qed.

  Lemma set_primary_get : uboot_get_primary (fw_printenv (run del e (uboot_set_primary rd slots cfg s b))) slots = Ok s.
  Proof.
    unfold uboot_get_primary. rewrite env_get_direct.
    destruct set_primary_val_order as (v & -> & post & Hp). cbn [bind]. rewrite Hp.
    apply first_bootable_head; auto. rewrite set_primary_left. apply attempts_pos.
  Qed.

  Lemma set_primary_state : uboot_get_state (fw_printenv (run del e (uboot_set_primary rd slots cfg s b))) b = Ok true.
  Proof.
    pose proof (clean_word_spec b Hc) as [Hne _].
    rewrite get_state_spec by assumption.
    destruct set_primary_val_order as (v & -> & _).
    destruct set_primary_boots as (pre & post & Ho & Hl & _).
    destruct in_dec as [_|Hno]; [|exfalso; apply Hno; rewrite Ho; apply in_or_app; right; now left].
    unfold left_of in Hl. fold (left_key b) in Hl.
    destruct (val_of _ (left_key b)) eqn:Ev; [|lia].
    apply f_equal. unfold left_of. fold (left_key b). rewrite Ev. now apply N.ltb_lt.
  Qed.

  Lemma set_primary_frame k : k <> "BOOT_ORDER" -> k <> left_key b ->
    run del e (uboot_set_primary rd slots cfg s b) k = e k.
  Proof.
    intros H1 H2. rewrite set_primary_run. unfold fw_setenv. cbn [fst snd].
    rewrite !upd_neq by congruence. reflexivity.
  Qed.

  Lemma set_primary_order :
    rd = fw_printenv e -> val_of e "BOOT_ORDER" <> None -> clean_order e ->
    order_of (run del e (uboot_set_primary rd slots cfg s b))
    = b :: filter (fun w => negb (String.eqb w b)) (order_of e).
  Proof.
    intros Hrd Hv Hco. rewrite set_primary_run.
    destruct (val_of e "BOOT_ORDER") as [v|] eqn:Ev; [|congruence].
    assert (Hoc : oc = v). { unfold oc. rewrite Hrd, env_get_direct, Ev. reflexivity. }
    rewrite Hoc, (other_words_order e v b Ev). apply order_of_written_exact.
    constructor; [assumption|]. now apply Forall_filter.
  Qed.

  Lemma set_primary_order_default :
    rd "BOOT_ORDER" = None -> (forall t x, In t slots -> sl_bootname t = Some x -> clean_word x = true) ->
    order_of (run del e (uboot_set_primary rd slots cfg s b)) = order_primary_words slots s b.
  Proof.
    intros Hrd Hcl. rewrite set_primary_run.
    assert (Hoc : oc = order_primary slots s b). { unfold oc, uboot_env_get. now rewrite Hrd. }
    rewrite Hoc.
    assert (HF : Forall (fun w => clean_word w = true) (order_primary_words slots s b)).
    { constructor; [assumption|]. apply Forall_forall. intros x Hx. apply in_flat_map in Hx as (t & Ht & Hx).
      destruct (same_slot t s); [destruct Hx|]. destruct (sl_bootname t) eqn:Et; [|destruct Hx].
      destruct Hx as [<-|[]]. eauto. }
    assert (Hw : other_words b (order_primary slots s b) =
       flat_map (fun t => if same_slot t s then [] else
                          match sl_bootname t with Some x => [x] | None => [] end) slots).
    { unfold other_words, order_primary, g_strsplit.
      destruct (join " " (order_primary_words slots s b)) eqn:Ej.
      { exfalso. eapply join_nonempty; [|exact HF|exact Ej]. discriminate. }
      rewrite <- Ej. rewrite split_on_join; [|discriminate|].
      2:{ eapply Forall_impl; [|exact HF]. intros ?. apply clean_no_space. }
      unfold order_primary_words. cbn [filter]. rewrite String.eqb_refl. cbn [negb andb].
      apply filter_all. apply Forall_forall. intros x Hx. apply in_flat_map in Hx as (t & Ht & Hx).
      unfold same_slot in Hx.
      destruct (String.eqb_spec (sl_name t) (sl_name s)) as [Heq|Hne]; [destruct Hx|].
      destruct (sl_bootname t) as [y|] eqn:Et; [|destruct Hx]. destruct Hx as [<-|[]].
      apply andb_true_iff; split; apply negb_true_iff, String.eqb_neq.
      - intros ->. apply Hne. eapply Hub; eauto.
      - intros ->. specialize (Hcl _ _ Ht Et). discriminate. }
    rewrite Hw. change (b :: flat_map _ slots) with (order_primary_words slots s b).
    now apply order_of_written_exact.
  Qed.

  (** crash points *)
  Lemma set_primary_crash n m : boots e m ->
    let e' := run del e (firstn n (uboot_set_primary rd slots cfg s b)) in
    boots e' m \/ boots e' b.
  Proof.
    intros (pre & post & Ho & Hl & HF) e'.
    destruct n as [|[|n]].
    - left. exists pre, post. auto.
    - assert (Horder : order_of e' = order_of e). { unfold e'. cbn. apply order_upd_left. }
      assert (Hleft : left_of e' b = attempts_or_default cfg).
      { unfold e'. cbn [firstn run fold_left uboot_set_primary]. apply left_upd_eq. now apply attempts_bound. }
      assert (Hlo : forall x, x <> b -> left_of e' x = left_of e x).
      { intros x Hx. unfold e'. cbn [firstn run fold_left uboot_set_primary]. now apply left_upd_neq. }
      pose proof (attempts_pos cfg) as Hp.
      destruct (in_dec string_dec b pre) as [Hbin|Hbn].
      + right. clear Hl.
        assert (Hex : exists p q, pre = p ++ b :: q /\ ~ In b p).
        { clear -Hbin. induction pre as [|x l IH]; [destruct Hbin|].
          destruct (string_dec x b) as [->|Hx].
          - exists [], l. auto.
          - destruct Hbin as [?|Hbin]; [congruence|]. destruct (IH Hbin) as (p & q & -> & Hn).
            exists (x :: p), q. split; [reflexivity|]. cbn. intuition. }
        destruct Hex as (p & q & -> & Hnp). exists p, (q ++ m :: post). split; [|split].
        * rewrite Horder, Ho. now rewrite <- app_assoc.
        * lia.
        * apply Forall_app in HF as [HF _]. rewrite Forall_forall in *. intros x Hx.
          rewrite Hlo; [auto|]. intros ->. contradiction.
      + left. exists pre, post. split; [congruence|]. split.
        * destruct (string_dec m b) as [->|Hm]; [lia|]. now rewrite Hlo.
        * rewrite Forall_forall in *. intros x Hx. rewrite Hlo; [auto|]. intros ->. contradiction.
    - right. assert (e' = run del e (uboot_set_primary rd slots cfg s b)) as ->.
      { unfold e'. cbn [uboot_set_primary firstn]. now rewrite firstn_nil. }
      apply set_primary_boots.
  Qed.
End SetPrimary.

Lemma set_primary_order_direct :
  forall del e slots cfg s b,
    In s slots -> sl_bootname s = Some b -> clean_word b = true -> (cfg < 2 ^ 31)%Z ->
    e "BOOT_ORDER" <> None -> clean_order e ->
    order_of (run del e (uboot_set_primary (fw_printenv e) slots cfg s b))
    = b :: filter (fun w => negb (String.eqb w b)) (order_of e).
Proof.
  intros del e slots cfg s b _ _ Hc _ Ho Hco. apply set_primary_order; auto.
  unfold val_of. destruct (e "BOOT_ORDER"); [discriminate|congruence].
Qed.

(** *** set_state bad *)
Section MarkBad.
  Context (del : bool) (e : env) (rd : reader) (cfg : Z) (b : string).
  Hypothesis (Hh : honest rd e) (Hc : clean_word b = true).

  Lemma mark_bad_run : 
    (exists v, uboot_env_get rd "BOOT_ORDER" = Ok v /\ val_of e "BOOT_ORDER" = Some v /\
       uboot_set_state rd cfg b false = 
        [("BOOT_ORDER", join " " (other_words b v)); (left_key b, print_num 16 0)])
    \/ uboot_set_state rd cfg b false = [(left_key b, print_num 16 0)].
  Proof.
    unfold uboot_set_state. destruct (uboot_env_get rd "BOOT_ORDER") as [v| |] eqn:E; auto.
    left. exists v. repeat split. eapply env_get_honest; eauto.
  Qed.

  Lemma mark_bad_left : left_of (run del e (uboot_set_state rd cfg b false)) b = 0%N.
  Proof.
    destruct mark_bad_run as [(v & _ & _ & ->)| ->]; cbn [run fold_left].
    - apply left_upd_eq. reflexivity.
    - apply left_upd_eq. reflexivity.
  Qed.

  Lemma mark_bad_not_boots : ~ boots (run del e (uboot_set_state rd cfg b false)) b.
  Proof. intros (pre & post & _ & H & _). rewrite mark_bad_left in H. lia. Qed.

  Lemma mark_bad_state : uboot_get_state (fw_printenv (run del e (uboot_set_state rd cfg b false))) b <> Ok true.
  Proof.
    pose proof (clean_word_spec b Hc) as [Hne _]. rewrite get_state_spec by assumption.
    rewrite mark_bad_left.
    destruct (val_of _ "BOOT_ORDER"); [|discriminate].
    destruct in_dec; [|discriminate]. destruct (val_of _ (left_key b)); discriminate.
  Qed.

  Lemma mark_bad_primary slots t :
    uboot_get_primary (fw_printenv (run del e (uboot_set_state rd cfg b false))) slots = Ok t ->
    sl_bootname t <> Some b.
  Proof.
    unfold uboot_get_primary. rewrite env_get_direct. destruct (val_of _ "BOOT_ORDER"); [|discriminate].
    cbn [bind]. intros H. apply first_bootable_ok in H as (_ & pre & w & post & _ & Hw & Hl & _).
    intros H2. assert (w = b) by congruence. subst w. rewrite mark_bad_left in Hl. lia.
  Qed.

  Lemma mark_bad_frame k : k <> "BOOT_ORDER" -> k <> left_key b ->
    run del e (uboot_set_state rd cfg b false) k = e k.
  Proof.
    intros H1 H2.
    destruct mark_bad_run as [(v & _ & _ & ->)| ->]; cbn [run fold_left]; unfold fw_setenv; cbn [fst snd];
    rewrite !upd_neq by congruence; reflexivity.
  Qed.

  Lemma mark_bad_order : clean_order e -> rd "BOOT_ORDER" <> None ->
    order_of (run del e (uboot_set_state rd cfg b false))
    = filter (fun w => negb (String.eqb w b)) (order_of e).
  Proof.
    intros Hco Hrd.
    assert (Hget : exists v, uboot_env_get rd "BOOT_ORDER" = Ok v /\ val_of e "BOOT_ORDER" = Some v).
    { destruct (rd "BOOT_ORDER") as [out|] eqn:E; [|congruence].
      pose proof (Hh _ _ E) as E2. unfold fw_printenv in E2.
      destruct (e "BOOT_ORDER") as [w|] eqn:Ew; [|discriminate]. cbn [option_map] in E2.
      exists (chomp w). unfold val_of. rewrite Ew. split; [|reflexivity].
      pose proof (env_get_direct e "BOOT_ORDER") as H. unfold val_of in H. rewrite Ew in H.
      cbn [option_map] in H. rewrite <- H. unfold uboot_env_get. rewrite E.
      unfold fw_printenv. rewrite Ew. cbn [option_map]. now inversion E2. }
    destruct Hget as (v & Hg & Hv). unfold uboot_set_state. rewrite Hg. cbn [run fold_left].
    rewrite order_upd_left. rewrite (other_words_order e v b Hv).
    apply order_of_written_exact. now apply Forall_filter.
  Qed.

  Lemma filter_pre_left (e1 : env) pre :
    Forall (fun m => left_of e m = 0%N) pre ->
    (forall x, x <> b -> left_of e1 x = left_of e x) ->
    Forall (fun m => left_of e1 m = 0%N) (filter (fun w => negb (String.eqb w b)) pre).
  Proof.
    intros HF Hl. apply Forall_forall. intros x Hx. apply filter_In in Hx as [Hx1 Hx2].
    apply negb_true_iff, String.eqb_neq in Hx2. rewrite Hl by assumption.
    rewrite Forall_forall in HF. auto.
  Qed.

  Lemma mark_bad_crash n m : clean_order e -> m <> b -> boots e m ->
    boots (run del e (firstn n (uboot_set_state rd cfg b false))) m.
  Proof.
    intros Hco Hm (pre & post & Ho & Hl & HF).
    assert (Hpm : negb (String.eqb m b) = true) by (apply negb_true_iff, String.eqb_neq, Hm).
    destruct mark_bad_run as [(v & _ & Hv & ->)| ->].
    - set (e1 := fw_setenv del e ("BOOT_ORDER", join " " (other_words b v))).
      assert (Ho1 : order_of e1 = filter (fun w => negb (String.eqb w b)) pre
                     ++ m :: filter (fun w => negb (String.eqb w b)) post).
      { unfold e1. rewrite (other_words_order e v b Hv), order_of_written_exact by now apply Forall_filter.
        rewrite Ho. now apply filter_split. }
      assert (Hl1 : forall x, left_of e1 x = left_of e x) by (intros x; apply left_upd_order).
      destruct n as [|[|n]].
      + exists pre, post. auto.
      + cbn [firstn run fold_left]. fold e1. eexists _, _. split; [exact Ho1|]. split; [now rewrite Hl1|].
        apply filter_pre_left; auto.
      + cbn [firstn run fold_left]. rewrite firstn_nil. cbn [fold_left]. fold e1.
        eexists _, _. split; [rewrite order_upd_left; exact Ho1|]. split.
        * rewrite left_upd_neq by assumption. now rewrite Hl1.
        * apply filter_pre_left; [assumption|]. intros x Hx. rewrite left_upd_neq by assumption. apply Hl1.
    - destruct n as [|n].
      + exists pre, post. auto.
      + cbn [firstn run fold_left]. rewrite firstn_nil. cbn [fold_left].
        (* b may be in pre: its counter becomes 0, which keeps the others unchanged *)
        exists pre, post. split; [now rewrite order_upd_left|]. split; [now rewrite left_upd_neq|].
        apply Forall_forall. intros x Hx. destruct (string_dec x b) as [->|Hxb].
        * apply left_upd_eq. reflexivity.
        * rewrite left_upd_neq by assumption. rewrite Forall_forall in HF. auto.
  Qed.
End MarkBad.

(** *** set_state good *)
Lemma mark_good_state del e rd cfg b : clean_word b = true -> (cfg < 2 ^ 31)%Z ->
  In b (order_of e) ->
  uboot_get_state (fw_printenv (run del e (uboot_set_state rd cfg b true))) b = Ok true.
Proof.
  intros Hc Hcfg Hin. pose proof (clean_word_spec b Hc) as [Hne _].
  rewrite get_state_spec by assumption. cbn [uboot_set_state run fold_left].
  rewrite val_upd_neq by apply left_key_order.
  rewrite order_upd_left. rewrite left_upd_eq by now apply attempts_bound.
  destruct (val_of e "BOOT_ORDER") eqn:Ev.
  - destruct in_dec; [|contradiction]. rewrite val_upd_eq by apply print_num_nonempty.
    f_equal. apply N.ltb_lt. apply attempts_pos.
  - exfalso. unfold order_of in Hin. now rewrite Ev in Hin.
Qed.

Lemma mark_good_frame del e rd cfg b k : k <> left_key b ->
  run del e (uboot_set_state rd cfg b true) k = e k.
Proof.
  intros H. cbn [uboot_set_state run fold_left]. unfold fw_setenv. cbn [fst snd]. now rewrite upd_neq by congruence.
Qed.

(** *** combined statements, used by Prop_Uboot.v *)
Lemma uboot_set_primary_ok :
  forall del e rd slots cfg s b,
    honest rd e -> unique_names slots -> unique_bootnames slots ->
    In s slots -> sl_bootname s = Some b -> clean_word b = true -> (cfg < 2 ^ 31)%Z ->
    let e' := run del e (uboot_set_primary rd slots cfg s b) in
    uboot_get_primary (fw_printenv e') slots = Ok s /\
    uboot_get_state (fw_printenv e') b = Ok true /\
    boots e' b /\
    left_of e' b = (if (cfg <=? 0)%Z then 3%N else Z.to_N cfg) /\
    (forall k, k <> "BOOT_ORDER" -> k <> ("BOOT_" ++ b ++ "_LEFT")%string -> e' k = e k).
Proof.
  intros. split; [now apply set_primary_get|]. split; [now apply set_primary_state|].
  split; [now apply set_primary_boots|]. split; [now apply set_primary_left|]. intros; now apply set_primary_frame.
Qed.

Lemma uboot_set_primary_order_default_ok :
  forall del e rd slots cfg s b,
    unique_bootnames slots -> In s slots -> sl_bootname s = Some b -> clean_word b = true ->
    rd "BOOT_ORDER" = None ->
    (forall t x, In t slots -> sl_bootname t = Some x -> clean_word x = true) ->
    order_of (run del e (uboot_set_primary rd slots cfg s b))
    = b :: flat_map (fun t => if String.eqb (sl_name t) (sl_name s) then []
                              else match sl_bootname t with Some x => [x] | None => [] end) slots.
Proof.
  intros. now apply set_primary_order_default.
Qed.

Lemma uboot_mark_bad_ok :
  forall del e rd cfg b,
    honest rd e -> clean_word b = true ->
    let e' := run del e (uboot_set_state rd cfg b false) in
    ~ boots e' b /\
    uboot_get_state (fw_printenv e') b <> Ok true /\
    (forall slots t, uboot_get_primary (fw_printenv e') slots = Ok t -> sl_bootname t <> Some b) /\
    (forall k, k <> "BOOT_ORDER" -> k <> ("BOOT_" ++ b ++ "_LEFT")%string -> e' k = e k).
Proof.
  intros. split; [now apply mark_bad_not_boots|]. split; [now apply mark_bad_state|].
  split; [intros ? ?; now apply mark_bad_primary|]. intros; now apply mark_bad_frame.
Qed.

Lemma uboot_mark_good_ok :
  forall del e rd cfg b,
    clean_word b = true -> (cfg < 2 ^ 31)%Z -> In b (order_of e) ->
    uboot_get_state (fw_printenv (run del e (uboot_set_state rd cfg b true))) b = Ok true /\
    (forall k, k <> ("BOOT_" ++ b ++ "_LEFT")%string ->
       run del e (uboot_set_state rd cfg b true) k = e k).
Proof.
  intros. split; [now apply mark_good_state|]. intros; now apply mark_good_frame.
Qed.

Lemma uboot_set_primary_crash_ok :
  forall del e rd slots cfg s b,
    clean_word b = true -> (cfg < 2 ^ 31)%Z ->
    forall n m, boots e m ->
      let e' := run del e (firstn n (uboot_set_primary rd slots cfg s b)) in
      boots e' m \/ boots e' b.
Proof.
  intros. now apply set_primary_crash.
Qed.

Lemma uboot_mark_bad_crash_ok :
  forall del e rd cfg b,
    honest rd e ->
    forall n m, clean_order e -> m <> b -> boots e m ->
      boots (run del e (firstn n (uboot_set_state rd cfg b false))) m.
Proof.
  intros. now apply mark_bad_crash.
Qed.

Lemma uboot_mark_bad_order_ok :
  forall del e rd cfg b,
    honest rd e -> clean_order e -> rd "BOOT_ORDER" <> None ->
    order_of (run del e (uboot_set_state rd cfg b false))
    = filter (fun w => negb (String.eqb w b)) (order_of e).
Proof.
  intros. now apply mark_bad_order.
Qed.

