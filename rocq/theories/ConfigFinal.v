From Coq Require Import Permutation.
From Verif Require Import Base BaseLemmas KeyFile KeyFileLemmas Semver Polling Config ConfigSpec ConfigFormats ConfigParents ConfigRead ConfigProofs ConfigLoad.

Lemma load_inv o1 o2 o3 kf c : load_config o1 o2 o3 kf = Ok c ->
  exists kf', parse_config o1 o2 kf = Ok (c, kf') /\ check_bootnames (o3 (f_slots c)) [] = true /\
    check_classes (f_slots c) (f_repos c) = true /\ check_target (f_system c) = true.
Proof.
  unfold load_config. destruct (parse_config o1 o2 kf) as [[c' kf']| |]; cbn [bind]; try discriminate.
  destruct (check_bootnames _ _) eqn:B; [|discriminate]. destruct (check_classes _ _) eqn:C; [|discriminate]. destruct (check_target _) eqn:T; [|discriminate].
  cbn [negb]. intros H. apply Ok_inj in H. subst c'. exists kf'. auto.
Qed.

(** the slots are those of the file *)
Lemma slot_of kf c n s : config_sem kf c -> In s (f_slots c) -> c_name s = n ->
  exists l, kf_group kf ("slot." ++ n) = Some l /\ exists cls idx, n = (cls ++ "." ++ idx)%string /\ slot_sem (y_bootloader (f_system c)) l cls idx s.
Proof.
  intros CS Hs <-. destruct (cs_slots _ _ CS s Hs) as (cl & ix & l & _ & _ & HG & SS). exists l.
  rewrite (slot_sem_name _ _ _ _ _ SS). split; [exact HG|]. exists cl, ix. auto.
Qed.
Lemma conf_file kf c : config_sem kf c -> forall n, conf_par (f_slots c) n = file_string kf ("slot." ++ n) "parent".
Proof.
  intros CS n. unfold conf_par. destruct (find_slot (f_slots c) n) as [s|] eqn:F.
  - destruct (find_slot_some _ _ _ F) as (Hs & HN). destruct (slot_of _ _ _ _ CS Hs HN) as (l & HG & cl & ix & _ & SS).
    rewrite <- (v_str_file _ _ _ _ HG). apply SS.
  - unfold file_string, kf_get. destruct (assoc ("slot." ++ n) kf) as [l|] eqn:G; [|unfold kf_group; rewrite G; reflexivity]. exfalso.
    assert (K : In n (map c_name (f_slots c))) by (apply (cs_all _ _ CS); eapply kf_group_in; exact G).
    apply in_map_iff in K as (s & <- & Hs). rewrite (find_slot_in _ _ (cs_nodup _ _ CS) Hs) in F. discriminate.
Qed.
Lemma conf_anc kf c : config_sem kf c -> forall a b, clos_trans string (link (conf_par (f_slots c))) a b <-> file_ancestor kf a b.
Proof.
  intros CS. assert (L : forall a b, link (conf_par (f_slots c)) a b <-> file_parent kf a b) by (intros; unfold link, file_parent; now rewrite (conf_file _ _ CS)).
  intros a b. split; intros H.
  - induction H as [x y K|x y z _ I1 _ I2]; [constructor; now apply L|eapply t_trans; eauto].
  - induction H as [x y K|x y z _ I1 _ I2]; [constructor; now apply L|eapply t_trans; eauto].
Qed.
Lemma slot_section kf c n : config_sem kf c -> In n (map c_name (f_slots c)) <-> In ("slot." ++ n)%string (kf_groups kf).
Proof.
  intros CS. split; [|apply (cs_all _ _ CS)]. intros H. apply in_map_iff in H as (s & HN & Hs). destruct (slot_of _ _ _ _ CS Hs HN) as (l & HG & _).
  eapply kf_group_in; exact HG.
Qed.

(** ** C29 *)
Lemma c29_roots_ok : forall o1 o2 o3 kf c, NoDup (kf_groups kf) ->
  (forall l, Permutation (o1 l) l) -> (forall l, Permutation (o2 l) l) -> load_config o1 o2 o3 kf = Ok c ->
  forall child, In ("slot." ++ child)%string (kf_groups kf) ->
    ((forall p, ~ file_parent kf child p) -> f_parent c child = None) /\
    (forall p, file_parent kf child p ->
       file_string kf ("slot." ++ child) "bootname" = None /\
       exists root, f_parent c child = Some root /\ file_ancestor kf child root /\
         In ("slot." ++ root)%string (kf_groups kf) /\ (forall q, ~ file_parent kf root q) /\ f_parent c root = None).
Proof.
  intros o1 o2 o3 kf c ND P1 P2 HL child HC. apply load_inv in HL as (kf' & E & _). destruct (parse_config_inv _ _ _ _ _ ND E) as (CS & RP).
  destruct (resolve_sound _ _ _ _ (cs_nodup _ _ CS) (P1 _) (P2 _) RP) as (A & B).
  apply (slot_section _ _ _ CS) in HC. apply in_map_iff in HC as (s & HN & Hs).
  destruct (slot_of _ _ _ _ CS Hs HN) as (l & HG & cl & ix & _ & SS).
  assert (PN : c_parent_name s = file_string kf ("slot." ++ child) "parent") by (rewrite <- (v_str_file _ _ _ _ HG); apply SS).
  assert (BN : c_bootname s = file_string kf ("slot." ++ child) "bootname") by (rewrite <- (v_str_file _ _ _ _ HG); apply SS).
  split.
  - intros NP. rewrite <- HN. apply A; [exact Hs|]. rewrite PN. unfold file_parent in NP. destruct (file_string kf ("slot." ++ child) "parent") as [p|]; [destruct (NP p eq_refl)|reflexivity].
  - intros p HP. unfold file_parent in HP. rewrite HP in PN. destruct (B s p Hs PN) as (B1 & root & R1 & R2 & R3 & R4 & R5). split; [congruence|].
    exists root. rewrite HN in R1, R5. split; [exact R1|]. split; [now apply (conf_anc _ _ CS)|]. split; [now apply (slot_section _ _ _ CS)|].
    split; [|exact R4]. intros q HQ. unfold file_parent in HQ. rewrite (conf_file _ _ CS) in R3. congruence.
Qed.

Lemma c29_cycle_ok : forall o1 o2 o3 kf c x, NoDup (kf_groups kf) ->
  (forall l, Permutation (o1 l) l) -> (forall l, Permutation (o2 l) l) -> file_ancestor kf x x -> load_config o1 o2 o3 kf <> Ok c.
Proof.
  intros o1 o2 o3 kf c x ND P1 P2 HA HL. pose proof HL as HL'. apply load_inv in HL' as (kf' & E & _). destruct (parse_config_inv _ _ _ _ _ ND E) as (CS & _).
  assert (HP : exists p, file_parent kf x p). { apply clos_trans_t1n in HA. inversion HA; subst; eauto. }
  destruct HP as (p & HP).
  assert (HX : In ("slot." ++ x)%string (kf_groups kf)).
  { unfold file_parent, file_string, kf_get in HP. destruct (assoc ("slot." ++ x) kf) as [l|] eqn:G; [eapply kf_group_in; exact G|unfold kf_group in HP; rewrite G in HP; discriminate]. }
  destruct (c29_roots_ok _ _ _ _ _ ND P1 P2 HL x HX) as (_ & B). destruct (B p HP) as (_ & root & _ & R2 & _ & R4 & _).
  apply (conf_anc _ _ CS) in HA, R2. apply (cycle_no_root _ _ _ HA R2). rewrite (conf_file _ _ CS).
  destruct (file_string kf ("slot." ++ root) "parent") as [q|] eqn:F; [destruct (R4 q F)|reflexivity].
Qed.

Lemma c29_missing_ok : forall o1 o2 o3 kf c child parent, NoDup (kf_groups kf) ->
  (forall l, Permutation (o1 l) l) -> (forall l, Permutation (o2 l) l) ->
  file_parent kf child parent -> ~ In ("slot." ++ parent)%string (kf_groups kf) \/ file_string kf ("slot." ++ child) "bootname" <> None ->
  load_config o1 o2 o3 kf <> Ok c.
Proof.
  intros o1 o2 o3 kf c x p ND P1 P2 HP HB HL. pose proof HL as HL'. apply load_inv in HL' as (kf' & E & _). destruct (parse_config_inv _ _ _ _ _ ND E) as (CS & RP).
  assert (HX : In ("slot." ++ x)%string (kf_groups kf)).
  { unfold file_parent, file_string, kf_get in HP. destruct (assoc ("slot." ++ x) kf) as [l|] eqn:G; [eapply kf_group_in; exact G|unfold kf_group in HP; rewrite G in HP; discriminate]. }
  destruct HB as [HB|HB].
  - apply (slot_section _ _ _ CS) in HX. apply in_map_iff in HX as (s & HN & Hs). unfold resolve_parents in RP.
    destruct (set_parents _ _ _) as [par| |] eqn:SP; try discriminate.
    assert (ND' : NoDup (map c_name (o1 (f_slots c)))). { eapply Permutation_NoDup; [|exact (cs_nodup _ _ CS)]. apply Permutation_map. symmetry. apply P1. }
    destruct (set_parents_ok _ _ _ _ ND' SP) as (A & _). specialize (A s). assert (Hs' : In s (o1 (f_slots c))) by (eapply Permutation_in; [symmetry; apply P1|exact Hs]).
    specialize (A Hs'). destruct (slot_of _ _ _ _ CS Hs HN) as (l & HG & cl & ix & _ & SS).
    assert (PN : c_parent_name s = file_string kf ("slot." ++ x) "parent") by (rewrite <- (v_str_file _ _ _ _ HG); apply SS).
    unfold file_parent in HP. rewrite HP in PN. rewrite PN in A. destruct A as (_ & (q & Q1 & Q2) & _). apply HB. apply (slot_section _ _ _ CS). apply in_map_iff. eauto.
  - destruct (c29_roots_ok _ _ _ _ _ ND P1 P2 HL x HX) as (_ & B). destruct (B p HP) as (K & _). contradiction.
Qed.

Lemma c29_accept_ok : forall slots o1 o2, NoDup (map c_name slots) -> Permutation o1 slots ->
  (forall s q, In s slots -> c_parent_name s = Some q -> In q (map c_name slots) /\ c_bootname s = None) ->
  (forall x, ~ clos_trans string (fun a b => exists s, In s slots /\ c_name s = a /\ c_parent_name s = Some b) x x) ->
  (List.length slots <= 102)%nat ->
  exists par, resolve_parents slots o1 o2 = Ok par.
Proof.
  intros slots o1 o2 ND P1 H AC LEN. apply resolve_complete; auto.
  apply acyclic_bound; auto.
  - intros s q Hs HQ. now destruct (H s q Hs HQ).
  - intros x K. apply (AC x). clear -K. revert K. generalize x at 2 4. intros x' K. induction K as [a b L|a b d _ I1 _ I2]; [|eapply t_trans; [exact I1|exact I2]].
    constructor. unfold link, conf_par in L. destruct (find_slot slots a) as [s|] eqn:F; [|discriminate]. apply find_slot_some in F as (F1 & F2). eauto.
Qed.

Lemma anc_first (par : string -> option string) a c : clos_trans string (link par) a c -> exists b, par a = Some b /\ (b = c \/ clos_trans string (link par) b c).
Proof.
  intros H. apply clos_trans_t1n in H. inversion H as [y L|y z L R]; subst; unfold link in L.
  - eauto.
  - exists y. split; [exact L|right]. now apply clos_t1n_trans.
Qed.
Lemma root_unique (par : string -> option string) a r : clos_trans string (link par) a r -> forall r', par r = None -> clos_trans string (link par) a r' -> par r' = None -> r = r'.
Proof.
  intros H. apply clos_trans_t1n in H. induction H as [a r L|a b r L H IH]; intros r' HR H' HR'; unfold link in L.
  - destruct (anc_first _ _ _ H') as (x & X1 & [->|X2]); [congruence|]. rewrite L in X1. injection X1 as <-.
    destruct (anc_first _ _ _ X2) as (y & Y & _). congruence.
  - destruct (anc_first _ _ _ H') as (x & X1 & X2). rewrite L in X1. injection X1 as <-. destruct X2 as [->|X2].
    + apply clos_t1n_trans in H. destruct (anc_first _ _ _ H) as (y & Y & _). congruence.
    + now apply IH.
Qed.

Lemma parse_config_orders o1 o2 o1' o2' kf c kf' p :
  parse_config o1 o2 kf = Ok (c, kf') -> resolve_parents (f_slots c) (o1' (f_slots c)) (o2' (f_slots c)) = Ok p ->
  parse_config o1' o2' kf = Ok (mkConfig (f_system c) (f_keyring c) (f_polling c) (f_handlers c) (f_loggers c) (f_slots c) p (f_repos c), kf').
Proof.
  intros E RP. unfold parse_config, mbind in *.
  destruct (parse_system kf) as [[y k0]| |]; cbn [bind] in *; try discriminate.
  destruct (parse_keyring k0) as [[kr k1]| |]; cbn [bind] in *; try discriminate.
  destruct (parse_casync k1) as [[ca k2]| |]; cbn [bind] in *; try discriminate.
  destruct (parse_streaming k2) as [[st k3]| |]; cbn [bind] in *; try discriminate.
  destruct (parse_polling k3) as [[po k4]| |]; cbn [bind] in *; try discriminate.
  destruct (parse_encryption k4) as [[en k5]| |]; cbn [bind] in *; try discriminate.
  destruct (parse_autoinstall k5) as [[ai k6]| |]; cbn [bind] in *; try discriminate.
  destruct (parse_handlers k6) as [[ha k7]| |]; cbn [bind] in *; try discriminate.
  destruct (parse_loggers (y_data_directory y) k7) as [[lg k8]| |]; cbn [bind] in *; try discriminate.
  destruct (parse_slots (y_bootloader y) k8) as [[sl k9]| |]; cbn [bind] in *; try discriminate.
  destruct (resolve_parents sl (o1 sl) (o2 sl)) as [pp| |] eqn:RR; cbn [bind] in *; try discriminate.
  destruct (parse_repos k9) as [[re k10]| |] eqn:PR; cbn [bind] in *; try discriminate.
  destruct (check_groups k10) as [[u k11]| |] eqn:CG; cbn [bind] in *; try discriminate.
  unfold ret in E. apply Ok_inj in E. injection E as <- <-. cbn [f_slots] in RP. rewrite RP. cbn [bind]. rewrite PR. cbn [bind]. rewrite CG. cbn [bind]. reflexivity.
Qed.

Lemma c29_order_ok : forall o1 o2 o3 o1' o2' o3' kf c, NoDup (kf_groups kf) ->
  (forall l, Permutation (o1 l) l) -> (forall l, Permutation (o2 l) l) -> (forall l, Permutation (o3 l) l) ->
  (forall l, Permutation (o1' l) l) -> (forall l, Permutation (o2' l) l) -> (forall l, Permutation (o3' l) l) ->
  (forall a n b, parent_chain kf n a b -> (n <= 101)%nat) ->
  load_config o1 o2 o3 kf = Ok c ->
  exists p, load_config o1' o2' o3' kf = Ok (mkConfig (f_system c) (f_keyring c) (f_polling c) (f_handlers c) (f_loggers c) (f_slots c) p (f_repos c)) /\
    (forall s, In s (f_slots c) -> p (c_name s) = f_parent c (c_name s)).
Proof.
  intros o1 o2 o3 o1' o2' o3' kf c ND P1 P2 P3 P1' P2' P3' CH HL. apply load_inv in HL as (kf' & E & CB & CC & CT).
  destruct (parse_config_inv _ _ _ _ _ ND E) as (CS & RP). pose proof (cs_nodup _ _ CS) as NS.
  destruct (resolve_sound _ _ _ _ NS (P1 _) (P2 _) RP) as (A & B).
  assert (NL : forall m n b, nlinks (conf_par (f_slots c)) m n b -> parent_chain kf m n b).
  { induction m as [|m IH]; intros n b H; [exact H|]. destruct H as (d & L & H). exists d. split; [|now apply IH]. unfold link in L. now rewrite (conf_file _ _ CS) in L. }
  destruct (resolve_complete (f_slots c) (o1' (f_slots c)) (o2' (f_slots c)) NS (P1' _)) as (p & RP').
  { intros s q Hs HQ. destruct (B s q Hs HQ) as (B1 & root & _). split; [|exact B1].
    unfold resolve_parents in RP. destruct (set_parents _ _ _) as [par| |] eqn:SP; try discriminate.
    assert (ND' : NoDup (map c_name (o1 (f_slots c)))). { eapply Permutation_NoDup; [|exact NS]. apply Permutation_map. symmetry. apply P1. }
    destruct (set_parents_ok _ _ _ _ ND' SP) as (AA & _). assert (Hs' : In s (o1 (f_slots c))) by (eapply Permutation_in; [symmetry; apply P1|exact Hs]).
    specialize (AA s Hs'). rewrite HQ in AA. destruct AA as (_ & (u & U1 & U2) & _). apply in_map_iff. eauto. }
  { intros n m b H. eapply CH. apply NL. exact H. }
  exists p. split.
  - unfold load_config. rewrite (parse_config_orders _ _ _ _ _ _ _ _ E RP'). cbn [bind f_slots f_repos f_system].
    assert (check_bootnames (o3' (f_slots c)) [] = true) as ->. { apply (check_bootnames_perm (f_slots c)); auto. apply (check_bootnames_perm (f_slots c) (o3 (f_slots c))); auto. }
    rewrite CC, CT. reflexivity.
  - destruct (resolve_sound _ _ _ _ NS (P1' _) (P2' _) RP') as (A' & B').
    intros s Hs. destruct (c_parent_name s) as [q|] eqn:Q; [|rewrite A, A' by auto; reflexivity].
    destruct (B s q Hs Q) as (_ & r & R1 & _ & R2 & _ & R3). destruct (B' s q Hs Q) as (_ & r' & R1' & _ & R2' & _ & R3').
    rewrite R1, R1'. f_equal. symmetry. eapply root_unique; eauto.
Qed.

(** ** C31 *)
Lemma c31_ok : forall o1 o2 o3 kf c, NoDup (kf_groups kf) -> (forall l, Permutation (o3 l) l) ->
  load_config o1 o2 o3 kf = Ok c -> forall a b name,
  file_string kf ("slot." ++ a) "bootname" = Some name -> file_string kf ("slot." ++ b) "bootname" = Some name -> a = b.
Proof.
  intros o1 o2 o3 kf c ND P3 HL a b name HA HB. apply load_inv in HL as (kf' & E & CB & _). destruct (parse_config_inv _ _ _ _ _ ND E) as (CS & _).
  pose proof (proj1 (check_bootnames_perm _ _ (cs_nodup _ _ CS) (P3 _)) CB) as U.
  assert (G : forall n, file_string kf ("slot." ++ n) "bootname" = Some name -> exists s, In s (f_slots c) /\ c_name s = n /\ c_bootname s = Some name).
  { intros n HN. assert (HX : In ("slot." ++ n)%string (kf_groups kf)).
    { unfold file_string, kf_get in HN. destruct (assoc ("slot." ++ n) kf) as [l|] eqn:G; [eapply kf_group_in; exact G|unfold kf_group in HN; rewrite G in HN; discriminate]. }
    apply (slot_section _ _ _ CS) in HX. apply in_map_iff in HX as (s & HS & Hs). exists s. split; [exact Hs|]. split; [exact HS|].
    destruct (slot_of _ _ _ _ CS Hs HS) as (l & HG & cl & ix & _ & SS). rewrite <- HN, <- (v_str_file _ _ _ _ HG). apply SS. }
  destruct (G a HA) as (s & S1 & <- & S3). destruct (G b HB) as (t & T1 & <- & T3). eauto.
Qed.
Lemma c31_check_ok : forall slots order, NoDup (map c_name slots) -> Permutation order slots ->
  check_bootnames order [] = true <->
  (forall s t b, In s slots -> In t slots -> c_bootname s = Some b -> c_bootname t = Some b -> c_name s = c_name t).
Proof. exact check_bootnames_perm. Qed.

(** ** C30 *)
Lemma c30_load_ok : forall o1 o2 o3 kf c, NoDup (kf_groups kf) -> load_config o1 o2 o3 kf = Ok c ->
  match file_string kf "system" "bundle-formats" with
  | None => forall f, N.testbit (y_formats (f_system c)) f = true <-> (f < 3)%N
  | Some value =>
      y_formats (f_system c) <> 0%N /\
      exists toks, Forall2 is_ftoken (words value) toks /\
        ((toks <> [] /\ Forall is_fset toks /\ forall f, N.testbit (y_formats (f_system c)) f = true <-> In (FSet f) toks) \/
         (Forall (fun t => ~ is_fset t) toks /\ forall f, N.testbit (y_formats (f_system c)) f = modified toks f (f <? 3)%N))
  end.
Proof.
  intros o1 o2 o3 kf c ND HL. apply load_inv in HL as (kf' & E & _). destruct (parse_config_inv _ _ _ _ _ ND E) as (CS & _).
  destruct (cs_system _ _ CS) as (l & HG & SS).
  assert (T7 : forall f, N.testbit 7 f = (f <? 3)%N). { intros [|[[[]|[]|]|[[]|[]|]|]]; reflexivity. }
  assert (F : match v_str l "bundle-formats" with Some s => parse_bundle_formats 7 s = Ok (y_formats (f_system c)) | None => y_formats (f_system c) = 7%N end) by apply SS.
  rewrite (v_str_file _ _ _ _ HG) in F. destruct (file_string kf "system" "bundle-formats") as [v|].
  - apply c30_ok in F as (A & toks & B & C). split; [exact A|]. exists toks. split; [exact B|]. destruct C as [C|(C1 & C2)]; [now left|right]. split; [exact C1|].
    intros f. rewrite C2, T7. reflexivity.
  - intros f. rewrite F, T7. apply N.ltb_lt.
Qed.

(** ** C47 *)
Lemma c47_known_ok : forall o1 o2 o3 kf c, NoDup (kf_groups kf) -> load_config o1 o2 o3 kf = Ok c ->
  forall g, In g (kf_groups kf) -> exists keys, known_group kf g keys /\ forall k, In k (kf_keys kf g) -> In k keys.
Proof.
  intros o1 o2 o3 kf c ND HL. apply load_inv in HL as (kf' & E & _). destruct (parse_config_inv _ _ _ _ _ ND E) as (CS & _). exact (cs_known _ _ CS).
Qed.
Lemma c47_slots_ok : forall o1 o2 o3 kf c, NoDup (kf_groups kf) -> load_config o1 o2 o3 kf = Ok c ->
  NoDup (map c_name (f_slots c)) /\
  (forall n, In n (map c_name (f_slots c)) <-> In ("slot." ++ n)%string (kf_groups kf)) /\
  (forall s, In s (f_slots c) -> let g := ("slot." ++ c_name s)%string in
     (exists idx, c_name s = (c_class s ++ "." ++ idx)%string /\ no_char "." (c_class s) = true /\ no_char "." idx = true) /\
     file_string kf g "device" = Some (c_device s) /\
     c_type s = (match file_string kf g "type" with Some t => t | None => "raw" end) /\
     c_bootname s = file_string kf g "bootname" /\
     c_allow_mounted s = file_bool kf g "allow-mounted" false /\
     c_readonly s = file_bool kf g "readonly" false /\
     c_resize s = file_bool kf g "resize" false /\
     c_install_same s = file_bool kf g "install-same" (file_bool kf g "force-install-same" (file_bool kf g "ignore-checksum" true))).
Proof.
  intros o1 o2 o3 kf c ND HL. apply load_inv in HL as (kf' & E & _). destruct (parse_config_inv _ _ _ _ _ ND E) as (CS & _).
  split; [exact (cs_nodup _ _ CS)|]. split; [intros n; apply (slot_section _ _ _ CS)|].
  intros s Hs g. unfold g. destruct (cs_slots _ _ CS s Hs) as (cl & ix & l & N1 & N2 & HG & SS).
  rewrite (slot_sem_name _ _ _ _ _ SS). rewrite <- !(v_str_file _ _ _ _ HG), <- !(v_bool_file _ _ _ _ _ HG).
  destruct SS as (_ & -> & B & C & _ & D & _ & F & G & H & I1 & _).
  split; [exists ix; auto|]. split; [exact B|]. split; [exact C|]. split; [exact D|]. split; [exact F|]. split; [exact G|]. split; [exact I1|]. exact H.
Qed.
Lemma c47_system_ok : forall o1 o2 o3 kf c, NoDup (kf_groups kf) -> load_config o1 o2 o3 kf = Ok c ->
  let y := f_system c in
  (exists v, y_compatible y = Some v /\ file_string kf "system" "compatible" = Some v) /\
  (exists b, y_bootloader y = Some b /\ file_string kf "system" "bootloader" = Some b /\ In b ["barebox"; "grub"; "uboot"; "efi"; "custom"; "noop"] /\
     ((0 < y_boot_attempts y \/ 0 < y_boot_attempts_primary y)%Z -> b = "uboot" \/ b = "barebox")) /\
  (0 <= y_boot_attempts y)%Z /\ (0 <= y_boot_attempts_primary y)%Z /\
  y_max_signature y <> 0%N /\
  y_statusfile y = (match file_string kf "system" "statusfile", file_string kf "system" "data-directory" with
                    | Some s, _ => s
                    | None, Some d => (d ++ "/central.raucs")%string
                    | None, None => "per-slot"
                    end) /\
  (y_statusfile y = "per-slot" -> file_string kf "system" "data-directory" = None) /\
  y_activate_installed y = file_bool kf "system" "activate-installed" true /\
  y_prevent_late_fallback y = file_bool kf "system" "prevent-late-fallback" false /\
  (match file_bool kf "system" "variant-dtb" false, file_string kf "system" "variant-file", file_string kf "system" "variant-name" with
   | true, None, None => y_variant y = VarDtb
   | false, Some f, None => y_variant y = VarFile f
   | false, None, Some n => y_variant y = VarName n
   | false, None, None => y_variant y = VarNone
   | _, _, _ => False
   end) /\
  (forall lg, In lg (f_loggers c) -> (1 <= g_maxfiles lg <= 1000)%Z).
Proof.
  intros o1 o2 o3 kf c ND HL y. apply load_inv in HL as (kf' & E & _ & _ & CT). destruct (parse_config_inv _ _ _ _ _ ND E) as (CS & _).
  destruct (cs_system _ _ CS) as (l & HG & S1 & S2 & _ & _ & S3 & S4 & S5 & S6 & S7 & S8 & _ & S9 & SV & S10 & _). unfold y. unfold variant_sem in SV.
  unfold check_target in CT. destruct (y_compatible (f_system c)) as [v|] eqn:C1; [|discriminate]. destruct (y_bootloader (f_system c)) as [b|] eqn:C2; [|discriminate].
  apply andb_prop in CT as [T1 T2]. rewrite !(v_str_file _ _ _ _ HG) in *. rewrite (v_bool_file _ _ _ _ _ HG) in S9. rewrite (v_bool_file _ _ _ _ _ HG) in S10. rewrite (v_bool_file _ _ _ _ _ HG) in SV.
  split; [exists v; auto|]. split.
  { exists b. split; [reflexivity|]. split; [auto|]. split; [apply mem_in; exact T1|]. intros K.
    assert (KK : ((0 <? y_boot_attempts (f_system c)) || (0 <? y_boot_attempts_primary (f_system c)))%Z = true).
    { apply orb_true_intro. rewrite !Z.ltb_lt. exact K. }
    rewrite KK in T2. apply orb_prop in T2 as [T2|T2]; apply String.eqb_eq in T2; auto. }
  split; [exact S6|]. split; [exact S7|]. split; [exact S8|].
  split. { rewrite S4. destruct (file_string kf "system" "statusfile"); [reflexivity|]. destruct (file_string kf "system" "data-directory"); reflexivity. }
  split; [intros K; rewrite <- S3; auto|]. split; [exact S9|]. split; [exact S10|]. split; [exact SV|]. exact (cs_log _ _ CS).
Qed.

(** documented but always refused *)
Lemma c47_jffs2_refuted : forall o1 o2 o3 kf c n, NoDup (kf_groups kf) ->
  file_string kf ("slot." ++ n) "type" = Some "jffs2" -> load_config o1 o2 o3 kf <> Ok c.
Proof.
  intros o1 o2 o3 kf c n ND HT HL. apply load_inv in HL as (kf' & E & _). destruct (parse_config_inv _ _ _ _ _ ND E) as (CS & _).
  assert (HX : In ("slot." ++ n)%string (kf_groups kf)).
  { unfold file_string, kf_get in HT. destruct (assoc ("slot." ++ n) kf) as [l|] eqn:G; [eapply kf_group_in; exact G|unfold kf_group in HT; rewrite G in HT; discriminate]. }
  apply (slot_section _ _ _ CS) in HX. apply in_map_iff in HX as (s & HS & Hs). destruct (slot_of _ _ _ _ CS Hs HS) as (l & HG & cl & ix & _ & SS).
  destruct SS as (_ & _ & _ & TY & MT & _). rewrite TY, (v_str_file _ _ _ _ HG), HT in MT. discriminate.
Qed.
