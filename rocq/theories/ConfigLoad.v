From Coq Require Import Permutation.
From Verif Require Import Base BaseLemmas KeyFile KeyFileLemmas Semver Polling Config ConfigSpec ConfigFormats ConfigParents ConfigRead ConfigProofs.

(** ** optional sections *)
Lemma has_group_spec kf g : has_group kf g = true <-> exists l, kf_group kf g = Some l.
Proof. unfold has_group. destruct (kf_group kf g) as [l|]; split; intros H; try discriminate; eauto. destruct H; discriminate. Qed.

Lemma section_inv {A} g (d : A) m ks kf a kf' :
  (forall l kf a kf1, at_ g [] l kf -> m kf = Ok (a, kf1) -> exists U, at_ g U l kf1 /\ incl U ks) ->
  section g d m kf = Ok (a, kf') -> forall l, kf_group kf g = Some l -> incl (map fst l) ks.
Proof.
  intros HM E l HL. unfold section in E. unfold has_group in E. rewrite HL in E.
  apply mbind_inv in E as (x & kf1 & E1 & E). apply mbind_inv in E as (u & kf2 & E2 & E).
  assert (H0 : at_ g [] l kf) by (unfold at_; now rewrite drop_nil).
  destruct (HM _ _ _ _ H0 E1) as (U & HU & HI). destruct (finish_inv _ _ _ _ _ _ HU E2) as (K & _).
  intros k Hk. apply HI. apply K. exact Hk.
Qed.

Ltac sect E := intros l0 kf0 a0 kf0' H0 E; repeat (rd E H0);
  first [ apply ret_inv in E as (_ & ->); eexists; split; [exact H0|] | idtac ]; try (intros k0 Hk0; cbn in Hk0 |- *; tauto).

Lemma keyring_keys kf a kf' : parse_keyring kf = Ok (a, kf') -> forall l, kf_group kf "keyring" = Some l ->
  incl (map fst l) ["path"; "directory"; "check-crl"; "allow-partial-chain"; "use-bundle-signing-time"; "check-purpose"; "allowed-signer-cns"].
Proof. unfold parse_keyring. apply section_inv. sect E. Qed.
Lemma casync_keys kf a kf' : parse_casync kf = Ok (a, kf') -> forall l, kf_group kf "casync" = Some l ->
  incl (map fst l) ["storepath"; "tmppath"; "install-args"; "use-desync"].
Proof. unfold parse_casync. apply section_inv. sect E. Qed.
Lemma streaming_keys kf a kf' : parse_streaming kf = Ok (a, kf') -> forall l, kf_group kf "streaming" = Some l ->
  incl (map fst l) ["sandbox-user"; "tls-cert"; "tls-key"; "tls-ca"; "send-headers"].
Proof. unfold parse_streaming. apply section_inv. sect E. Qed.
Lemma encryption_keys kf a kf' : parse_encryption kf = Ok (a, kf') -> forall l, kf_group kf "encryption" = Some l ->
  incl (map fst l) ["key"; "cert"].
Proof. unfold parse_encryption. apply section_inv. sect E. Qed.
Lemma autoinstall_keys kf a kf' : parse_autoinstall kf = Ok (a, kf') -> forall l, kf_group kf "autoinstall" = Some l ->
  incl (map fst l) ["path"].
Proof.
  unfold parse_autoinstall. apply section_inv. intros l0 kf0 a0 kf0' H0 E.
  apply (get_null_inv _ _ _ _ "path" _ _ H0 eq_refl) in E as (_ & H). eexists. split; [exact H|]. intros k Hk. exact Hk.
Qed.
Lemma handlers_sec_keys kf a kf' : parse_handlers kf = Ok (a, kf') -> forall l, kf_group kf "handlers" = Some l ->
  incl (map fst l) ["system-info"; "pre-install"; "post-install"].
Proof. unfold parse_handlers. apply section_inv. sect E. Qed.
Lemma polling_keys kf a kf' : parse_polling kf = Ok (a, kf') -> forall l, kf_group kf "polling" = Some l ->
  incl (map fst l) ["inhibit-files"; "candidate-criteria"; "install-criteria"; "reboot-criteria"; "url"; "interval-sec"; "max-interval-sec"; "reboot-cmd"].
Proof.
  unfold parse_polling. apply section_inv. intros l0 kf0 a0 kf0' H0 E.
  rd E H0. rd E H0. rd E H0. rd E H0. rd E H0. destruct (v_str l0 "url"); [|discriminate].
  rd E H0. rd E H0. rd E H0. rd E H0.
  apply mbind_inv in E as (im & kfi & EI & E). assert (kfi = kf7) as ->.
  { destruct (parse_intervals _ _); cbn in EI; try discriminate. apply Ok_inj in EI. injection EI as _ <-. reflexivity. }
  rd E H0. apply ret_inv in E as (_ & ->). eexists. split; [exact H0|]. intros k0 Hk0. cbn in Hk0 |- *. tauto.
Qed.

(** ** loops over the groups *)
Definition olist {B} (o : option B) : list B := match o with Some b => [b] | None => [] end.
Lemma mmap_inv {B} (f : string -> M (option B)) gs : (forall g, touches (eq g) (f g)) -> NoDup gs ->
  forall kf0 kf rs kf', (forall g, In g gs -> kf_group kf g = kf_group kf0 g) -> mmap f gs kf = Ok (rs, kf') ->
  exists os, rs = flat_map olist os /\ Forall2 (fun g o => exists k1 k2, f g k1 = Ok (o, k2) /\ kf_group k1 g = kf_group kf0 g) gs os.
Proof.
  intros HT. induction gs as [|g gs IH]; intros ND kf0 kf rs kf' HG E; cbn [mmap] in E.
  - apply ret_inv in E as (-> & _). exists []. split; [reflexivity|constructor].
  - inversion ND as [|? ? N1 N2]; subst.
    apply mbind_inv in E as (o & kf1 & E1 & E). apply mbind_inv in E as (r & kf2 & E2 & E). apply ret_inv in E as (-> & ->).
    destruct (IH N2 kf0 kf1 r kf2) as (os & -> & F); [|exact E2|].
    + intros h Hh. destruct (HT g _ _ _ E1) as (P & _). rewrite P by (intros <-; contradiction). apply HG. now right.
    + exists (o :: os). split; [destruct o; reflexivity|]. constructor; [|exact F].
      exists kf, kf1. split; [exact E1|]. apply HG. now left.
Qed.

Lemma Forall2_impl {A B} (R S : A -> B -> Prop) l m : (forall a b, R a b -> S a b) -> Forall2 R l m -> Forall2 S l m.
Proof. intros H F. induction F; constructor; auto. Qed.
Lemma touches_some {A} T (m : M A) : touches T m -> touches T (some m).
Proof. intros H. apply touches_bind; [exact H|]. intros. apply touches_ret. Qed.
Lemma touches_parse_slot bl g parts : touches (eq g) (parse_slot bl g parts).
Proof.
  unfold parse_slot. destruct parts as [|p [|c [|i [|x r]]]]; try apply touches_fail.
  unfold parse_install_same. touch.
Qed.
Lemma touches_parse_logger dd g : touches (eq g) (parse_logger dd g).
Proof. unfold parse_logger. touch. Qed.
Lemma touches_parse_repo g parts : touches (eq g) (parse_repo g parts).
Proof. unfold parse_repo. destruct parts as [|p [|n [|x r]]]; try apply touches_fail. touch. Qed.

Lemma touches_loop {B} (P : string -> bool) (f : string -> M B) : (forall g, touches (eq g) (f g)) ->
  (forall g, touches (eq g) (if P g then some (f g) else ret None)).
Proof. intros H g. destruct (P g); [now apply touches_some|apply touches_ret]. Qed.

Lemma loop_inv {B} (P : string -> bool) (f : string -> M B) kf rs kf' : (forall g, touches (eq g) (f g)) -> NoDup (kf_groups kf) ->
  (let* gs := groups in mmap (fun g => if P g then some (f g) else ret None) gs) kf = Ok (rs, kf') ->
  exists os, rs = flat_map olist os /\
    Forall2 (fun g o => match o with
       | Some b => P g = true /\ exists k1 k2, f g k1 = Ok (b, k2) /\ kf_group k1 g = kf_group kf g
       | None => P g = false end) (kf_groups kf) os.
Proof.
  intros HT ND E. apply mbind_inv in E as (gs & kf1 & E1 & E). unfold groups in E1. apply Ok_inj in E1. injection E1 as <- <-.
  destruct (mmap_inv _ _ (touches_loop P f HT) ND kf kf rs kf' (fun _ _ => eq_refl) E) as (os & -> & F). exists os. split; [reflexivity|].
  revert F. apply Forall2_impl. intros g o (k1 & k2 & Ef & K). destruct (P g).
  - apply mbind_inv in Ef as (b & k3 & E3 & E4). apply ret_inv in E4 as (-> & ->). split; [reflexivity|]. exists k1, k3. auto.
  - apply ret_inv in Ef as (-> & _). reflexivity.
Qed.

(** ** group names *)
Lemma split_prefix p rest g : g_strsplit "." g = p :: rest -> g = (match rest with [] => p | _ => p ++ "." ++ join "." rest end)%string /\
  Forall (fun w => no_char "." w = true) rest.
Proof.
  intros H. unfold g_strsplit in H. destruct g as [|a g]; [discriminate|]. pose proof (join_split_on "." (String a g)) as J.
  pose proof (split_on_no_char "." (String a g)) as NC. rewrite H in J, NC. split; [|now inversion NC].
  rewrite <- J. destruct rest; reflexivity.
Qed.
Lemma split_slot p c i g : g_strsplit "." g = [p; c; i] -> g = (p ++ "." ++ c ++ "." ++ i)%string /\ no_char "." c = true /\ no_char "." i = true.
Proof.
  intros H. apply split_prefix in H as (-> & F). cbn [join]. split; [reflexivity|]. inversion F as [|? ? F1 F2]; subst. inversion F2; subst. auto.
Qed.
Lemma slot_prefix n : first_is (g_strsplit "." ("slot." ++ n)) "slot" = true.
Proof.
  unfold g_strsplit. change ("slot." ++ n)%string with ("slot" ++ String "." n)%string. rewrite (split_on_cons "." "slot" n) by reflexivity. reflexivity.
Qed.
Lemma artifacts_prefix n : first_is (g_strsplit "." ("artifacts." ++ n)) "artifacts" = true.
Proof.
  unfold g_strsplit. change ("artifacts." ++ n)%string with ("artifacts" ++ String "." n)%string. rewrite (split_on_cons "." "artifacts" n) by reflexivity. reflexivity.
Qed.

(** ** strictness *)
Definition known0 (kf0 : keyfile) (g : string) : Prop := exists ks, known_group kf0 g ks /\ forall k, In k (kf_keys kf0 g) -> In k ks.
Definition expect (custom : bool) (g : string) (l : group) : group :=
  if String.eqb g "handlers" && custom then drop ["bootloader-custom-backend"] l else l.
Definition INV (kf0 : keyfile) (custom : bool) (kf : keyfile) : Prop :=
  forall g l0, kf_group kf0 g = Some l0 -> known0 kf0 g \/ kf_group kf g = Some (expect custom g l0).

Lemma INV_step {A} kf0 cu (T : string -> bool) (m : M A) kf a kf' : INV kf0 cu kf -> m kf = Ok (a, kf') -> touches (fun g => T g = true) m ->
  (forall g l0, T g = true -> kf_group kf0 g = Some l0 -> kf_group kf g = Some (expect cu g l0) -> known0 kf0 g) -> INV kf0 cu kf'.
Proof.
  intros HI E HT HK g l0 HG. destruct (HI g l0 HG) as [K|K]; [now left|]. destruct (T g) eqn:TG; [left; eapply HK; eauto|right].
  destruct (HT _ _ _ E) as (P & _). rewrite P by congruence. exact K.
Qed.
Lemma touches_eqb {A} g (m : M A) : touches (eq g) m -> touches (fun h => String.eqb g h = true) m.
Proof. apply touches_weaken. intros h <-. apply String.eqb_refl. Qed.

Lemma INV_section {A} kf0 cu g (d : A) m ks kf a kf' : INV kf0 cu kf -> section g d m kf = Ok (a, kf') -> touches (eq g) m -> In (g, ks) section_keys -> g <> "handlers" ->
  (forall l, kf_group kf g = Some l -> incl (map fst l) ks) -> INV kf0 cu kf'.
Proof.
  intros HI E HT HS HN HK. eapply (INV_step kf0 cu (String.eqb g)); [exact HI|exact E| |].
  - apply touches_eqb. apply touches_section; auto.
  - intros h l0 EH HG KG. apply String.eqb_eq in EH. subst h. exists ks. split; [now constructor|].
    unfold kf_keys. rewrite HG. unfold expect in KG. destruct (String.eqb_spec g "handlers"); [contradiction|]. cbn in KG. exact (HK _ KG).
Qed.

Lemma v_str_file kf g l k : kf_group kf g = Some l -> v_str l k = file_string kf g k.
Proof. intros H. unfold v_str, file_string, kf_get. unfold kf_group in *. rewrite H. reflexivity. Qed.
Lemma v_bool_file kf g l k d : kf_group kf g = Some l -> v_bool l k d = file_bool kf g k d.
Proof. intros H. unfold v_bool, file_bool, kf_get. unfold kf_group in *. rewrite H. reflexivity. Qed.
Lemma sdef_match o d : sdef o d = match o with Some t => t | None => d end.
Proof. reflexivity. Qed.

Lemma flat_olist {B} (os : list (option B)) b : In b (flat_map olist os) <-> In (Some b) os.
Proof.
  rewrite in_flat_map. split.
  - intros (o & O1 & O2). destruct o; [|destruct O2]. destruct O2 as [->|[]]. exact O1.
  - intros H. exists (Some b). split; [exact H|now left].
Qed.

Lemma kf_group_in kf g l : kf_group kf g = Some l -> In g (kf_groups kf).
Proof. intros H. apply assoc_in in H. unfold kf_groups. apply in_map_iff. exists (g, l). auto. Qed.
Lemma kf_in_group kf g : In g (kf_groups kf) -> exists l, kf_group kf g = Some l.
Proof. intros H. destruct (kf_group kf g) as [l|] eqn:E; [eauto|]. apply assoc_none in E. contradiction. Qed.
Lemma F2_in_r {A B} (R : A -> B -> Prop) l m b : Forall2 R l m -> In b m -> exists a, In a l /\ R a b.
Proof.
  induction 1 as [|x y l m H HF IH]; [intros []|]. intros [<-|Hb]; [exists x; cbn; auto|].
  destruct (IH Hb) as (a & Ha & HR). exists a. cbn; auto.
Qed.
Lemma F2_in_l {A B} (R : A -> B -> Prop) l m a : Forall2 R l m -> In a l -> exists b, In b m /\ R a b.
Proof.
  induction 1 as [|x y l m H HF IH]; [intros []|]. intros [<-|Ha]; [exists y; cbn; auto|].
  destruct (IH Ha) as (b & Hb & HR). exists b. cbn; auto.
Qed.

(** ** the loops of parse_config *)
Lemma slots_loop bl kf rs kf' : NoDup (kf_groups kf) -> parse_slots bl kf = Ok (rs, kf') ->
  (forall s, In s rs -> exists cls idx l, no_char "." cls = true /\ no_char "." idx = true /\
     kf_group kf ("slot." ++ cls ++ "." ++ idx) = Some l /\ slot_sem bl l cls idx s) /\
  (forall g l, kf_group kf g = Some l -> first_is (g_strsplit "." g) "slot" = true ->
     exists cls idx s, In s rs /\ g = ("slot." ++ cls ++ "." ++ idx)%string /\ no_char "." cls = true /\ no_char "." idx = true /\ slot_sem bl l cls idx s) /\
  NoDup (map c_name rs).
Proof.
  intros ND E.
  destruct (loop_inv (fun g => first_is (g_strsplit "." g) "slot") (fun g => parse_slot bl g (g_strsplit "." g)) kf rs kf'
             (fun g => touches_parse_slot _ _ _) ND E) as (os & -> & F).
  assert (ONE : forall g b k1 k2 l, first_is (g_strsplit "." g) "slot" = true -> parse_slot bl g (g_strsplit "." g) k1 = Ok (b, k2) -> kf_group k1 g = Some l ->
     exists cls idx, g = ("slot." ++ cls ++ "." ++ idx)%string /\ no_char "." cls = true /\ no_char "." idx = true /\ slot_sem bl l cls idx b).
  { intros g b k1 k2 l FI EP HL. destruct (g_strsplit "." g) as [|p [|c [|i [|x r]]]] eqn:SP; try discriminate.
    cbn [first_is] in FI. apply String.eqb_eq in FI. subst p. apply split_slot in SP as (-> & N1 & N2).
    exists c, i. split; [reflexivity|]. split; [exact N1|]. split; [exact N2|]. eapply parse_slot_inv; eauto. }
  split; [|split].
  - intros s Hs. apply flat_olist in Hs. destruct (F2_in_r _ _ _ _ F Hs) as (g & Hg & PG & k1 & k2 & Ef & K).
    destruct (kf_in_group _ _ Hg) as (l & HL). rewrite HL in K. destruct (ONE _ _ _ _ _ PG Ef K) as (c & i & -> & N1 & N2 & SS). exists c, i, l. auto.
  - intros g l HL PG. destruct (F2_in_l _ _ _ _ F (kf_group_in _ _ _ HL)) as (o & Ho & R). destruct o as [s|]; [|congruence].
    destruct R as (_ & k1 & k2 & Ef & K). rewrite HL in K. destruct (ONE _ _ _ _ _ PG Ef K) as (c & i & G & N1 & N2 & SS).
    exists c, i, s. split; [now apply flat_olist|]. auto.
  - assert (NM : forall g b, In g (kf_groups kf) -> (exists k1 k2, parse_slot bl g (g_strsplit "." g) k1 = Ok (b, k2) /\ kf_group k1 g = kf_group kf g) ->
        first_is (g_strsplit "." g) "slot" = true -> g = ("slot." ++ c_name b)%string).
    { intros g b Hg (k1 & k2 & Ef & K) FI. destruct (kf_in_group _ _ Hg) as (l & HL). rewrite HL in K.
      destruct (ONE _ _ _ _ _ FI Ef K) as (c & i & G & N1 & N2 & SS). destruct SS as (-> & _). exact G. }
    clear E ONE. revert ND NM F. generalize (kf_groups kf) as gs. intros gs. intros ND NM F.
    assert (G : forall b, In b (flat_map olist os) -> In ("slot." ++ c_name b)%string gs).
    { intros b Hb. apply flat_olist in Hb. destruct (F2_in_r _ _ _ _ F Hb) as (g & Hg & PG & EX). rewrite <- (NM g b Hg EX PG). exact Hg. }
    induction F as [|g o gs os R F IH]; cbn [flat_map]; [constructor|]. inversion ND as [|? ? N1 N2]; subst.
    assert (IH' : NoDup (map c_name (flat_map olist os))).
    { apply IH; [exact N2| |].
      - intros h b Hh. apply NM. now right.
      - intros b Hb. apply flat_olist in Hb. destruct (F2_in_r _ _ _ _ F Hb) as (h & Hh & PG & EX). rewrite <- (NM h b (or_intror Hh) EX PG). exact Hh. }
    destruct o as [b|]; [|exact IH']. cbn [olist app map]. constructor; [|exact IH'].
    intros K. apply in_map_iff in K as (b' & NB & Hb'). destruct R as (PG & EX). pose proof (NM g b (or_introl eq_refl) EX PG) as GB.
    apply N1. rewrite GB, <- NB. apply flat_olist in Hb'. destruct (F2_in_r _ _ _ _ F Hb') as (h & Hh & PG' & EX'). rewrite <- (NM h b' (or_intror Hh) EX' PG'). exact Hh.
Qed.

Lemma loggers_loop dd kf rs kf' : NoDup (kf_groups kf) -> parse_loggers dd kf = Ok (rs, kf') ->
  (forall g l, kf_group kf g = Some l -> has_prefix "log." g = true -> incl (map fst l) log_keys) /\
  (forall x, In x rs -> (1 <= g_maxfiles x <= 1000)%Z).
Proof.
  intros ND E. destruct (loop_inv (has_prefix "log.") (parse_logger dd) kf rs kf' (fun g => touches_parse_logger _ _) ND E) as (os & -> & F). split.
  - intros g l HL PG. destruct (F2_in_l _ _ _ _ F (kf_group_in _ _ _ HL)) as (o & Ho & R). destruct o as [s|]; [|congruence].
    destruct R as (_ & k1 & k2 & Ef & K). rewrite HL in K. destruct (parse_logger_keys _ _ _ _ _ _ K Ef) as (A & _). exact A.
  - intros x Hx. apply flat_olist in Hx. destruct (F2_in_r _ _ _ _ F Hx) as (g & Hg & PG & k1 & k2 & Ef & K).
    destruct (kf_in_group _ _ Hg) as (l & HL). rewrite HL in K. now destruct (parse_logger_keys _ _ _ _ _ _ K Ef).
Qed.

Lemma repos_loop kf rs kf' : NoDup (kf_groups kf) -> parse_repos kf = Ok (rs, kf') ->
  (forall g l, kf_group kf g = Some l -> first_is (g_strsplit "." g) "artifacts" = true ->
     exists n, g = ("artifacts." ++ n)%string /\ no_char "." n = true /\ incl (map fst l) artifacts_keys /\ In n (map p_name rs)).
Proof.
  intros ND E. destruct (loop_inv (fun g => first_is (g_strsplit "." g) "artifacts") (fun g => parse_repo g (g_strsplit "." g)) kf rs kf'
             (fun g => touches_parse_repo _ _) ND E) as (os & -> & F).
  intros g l HL PG. destruct (F2_in_l _ _ _ _ F (kf_group_in _ _ _ HL)) as (o & Ho & R). destruct o as [s|]; [|congruence].
  destruct R as (_ & k1 & k2 & Ef & K). rewrite HL in K.
  destruct (g_strsplit "." g) as [|p [|n [|x r]]] eqn:SP; try discriminate. cbn [first_is] in PG. apply String.eqb_eq in PG. subst p.
  apply split_prefix in SP as (-> & NC). inversion NC; subst. exists n. split; [reflexivity|]. split; [assumption|].
  destruct (parse_repo_inv _ _ _ _ _ _ _ K Ef) as (A & _ & _ & _ & B). split; [exact B|]. apply in_map_iff. exists s. split; [exact A|now apply flat_olist].
Qed.

Lemma system_present kf y kf' : parse_system kf = Ok (y, kf') -> exists l, kf_group kf "system" = Some l.
Proof.
  intros E. apply mbind_inv in E as (a & kf1 & E1 & _). apply mbind_inv in E1 as (r & kf2 & E1 & E2). unfold consume, lookup3 in E1.
  destruct (kf_group kf "system") as [l|]; [eauto|]. apply Ok_inj in E1. injection E1 as <- <-. discriminate.
Qed.
Definition sys_or_handlers (g : string) : Prop := g = "system" \/ g = "handlers".
Lemma touches_system : touches sys_or_handlers parse_system.
Proof.
  assert (W : forall A (m : M A), touches (eq "system") m -> touches sys_or_handlers m).
  { intros A m. apply touches_weaken. intros g <-. now left. }
  assert (S1 : sys_or_handlers "system") by now left. assert (S2 : sys_or_handlers "handlers") by now right.
  unfold parse_system, parse_bootloader_keys, parse_variant, parse_status_location. touch.
Qed.

Lemma slot_sem_name bl l c i s : slot_sem bl l c i s -> c_name s = (c ++ "." ++ i)%string.
Proof. intros (H & _). exact H. Qed.

Definition not_special (g : string) : Prop := ~ sys_or_handlers g /\ String.eqb "keyring" g = false /\ String.eqb "casync" g = false /\ String.eqb "streaming" g = false /\
  String.eqb "polling" g = false /\ String.eqb "encryption" g = false /\ String.eqb "autoinstall" g = false.

Record config_sem (kf : keyfile) (c : config) : Prop := {
  cs_system : exists l, kf_group kf "system" = Some l /\ system_sem l (f_system c);
  cs_known : forall g, In g (kf_groups kf) -> known0 kf g;
  cs_slots : forall s, In s (f_slots c) -> exists cls idx l, no_char "." cls = true /\ no_char "." idx = true /\
      kf_group kf ("slot." ++ cls ++ "." ++ idx) = Some l /\ slot_sem (y_bootloader (f_system c)) l cls idx s;
  cs_all : forall n, In ("slot." ++ n)%string (kf_groups kf) -> In n (map c_name (f_slots c));
  cs_nodup : NoDup (map c_name (f_slots c));
  cs_log : forall x, In x (f_loggers c) -> (1 <= g_maxfiles x <= 1000)%Z
}.

Lemma opt_str_eq kf l : kf_group kf "system" = Some l -> v_str l "bootloader" = file_string kf "system" "bootloader".
Proof. apply v_str_file. Qed.

Lemma drop_keys_in U l k : In k (map fst l) -> In k U \/ In k (map fst (drop U l)).
Proof.
  intros H. apply in_map_iff in H as (e & <- & He). destruct (mem U (fst e)) eqn:M; [left; now apply mem_in|right].
  apply in_map. apply filter_In. split; [exact He|]. now rewrite M.
Qed.

Lemma parse_config_inv o1 o2 kf c kf' : NoDup (kf_groups kf) -> parse_config o1 o2 kf = Ok (c, kf') ->
  config_sem kf c /\ resolve_parents (f_slots c) (o1 (f_slots c)) (o2 (f_slots c)) = Ok (f_parent c).
Proof.
  intros ND E. unfold parse_config in E.
  apply mbind_inv in E as (y & k0 & EY & E). destruct (system_present _ _ _ EY) as (l & HL).
  destruct (parse_system_inv _ _ _ _ HL EY) as (SEM & SN & H1 & H2).
  destruct (touches_system _ _ _ EY) as (P0 & _ & _ & ND0). specialize (ND0 ND).
  set (cu := opt_is (file_string kf "system" "bootloader") "custom").
  pose proof (opt_str_eq _ _ HL) as BL.
  assert (YB : y_bootloader y = file_string kf "system" "bootloader") by (destruct SEM as (_ & -> & _); exact BL).
  assert (I0 : INV kf cu k0).
  { intros g l0 HG. destruct (string_dec g "system") as [->|N1].
    - left. eexists. split; [apply KSystem|]. unfold kf_keys. rewrite HG. rewrite HL in HG. injection HG as <-. rewrite <- BL.
      apply SEM.
    - right. unfold expect. destruct (String.eqb_spec g "handlers") as [->|N2].
      + cbn [andb]. rewrite BL in H1, H2. fold cu in H1, H2. destruct cu; [rewrite H2 by reflexivity; now rewrite HG|rewrite H1 by reflexivity; exact HG].
      + cbn [andb]. rewrite P0 by (intros [K|K]; contradiction). exact HG. }
  clear H1 H2.
  apply mbind_inv in E as (kr & k1 & E1 & E).
  assert (T1 : touches (eq "keyring") parse_keyring) by (unfold parse_keyring; touch).
  pose proof (INV_section _ _ _ _ _ _ _ _ _ I0 E1 ltac:(touch) ltac:(now left) ltac:(discriminate) (keyring_keys _ _ _ E1)) as I1. destruct (T1 _ _ _ E1) as (P1 & _ & _ & ND1). specialize (ND1 ND0).
  apply mbind_inv in E as (ca & k2 & E2 & E).
  assert (T2 : touches (eq "casync") parse_casync) by (unfold parse_casync; touch).
  pose proof (INV_section _ _ _ _ _ _ _ _ _ I1 E2 ltac:(touch) ltac:(right; now left) ltac:(discriminate) (casync_keys _ _ _ E2)) as I2. destruct (T2 _ _ _ E2) as (P2 & _ & _ & ND2). specialize (ND2 ND1).
  apply mbind_inv in E as (st & k3 & E3 & E).
  assert (T3 : touches (eq "streaming") parse_streaming) by (unfold parse_streaming; touch).
  pose proof (INV_section _ _ _ _ _ _ _ _ _ I2 E3 ltac:(touch) ltac:(do 2 right; now left) ltac:(discriminate) (streaming_keys _ _ _ E3)) as I3. destruct (T3 _ _ _ E3) as (P3 & _ & _ & ND3). specialize (ND3 ND2).
  apply mbind_inv in E as (po & k4 & E4 & E).
  assert (T4 : touches (eq "polling") parse_polling) by (unfold parse_polling; touch).
  pose proof (INV_section _ _ _ _ _ _ _ _ _ I3 E4 ltac:(touch) ltac:(do 3 right; now left) ltac:(discriminate) (polling_keys _ _ _ E4)) as I4. destruct (T4 _ _ _ E4) as (P4 & _ & _ & ND4). specialize (ND4 ND3).
  apply mbind_inv in E as (en & k5 & E5 & E).
  assert (T5 : touches (eq "encryption") parse_encryption) by (unfold parse_encryption; touch).
  pose proof (INV_section _ _ _ _ _ _ _ _ _ I4 E5 ltac:(touch) ltac:(do 4 right; now left) ltac:(discriminate) (encryption_keys _ _ _ E5)) as I5. destruct (T5 _ _ _ E5) as (P5 & _ & _ & ND5). specialize (ND5 ND4).
  apply mbind_inv in E as (ai & k6 & E6 & E).
  assert (T6 : touches (eq "autoinstall") parse_autoinstall) by (unfold parse_autoinstall; touch).
  pose proof (INV_section _ _ _ _ _ _ _ _ _ I5 E6 ltac:(touch) ltac:(do 5 right; now left) ltac:(discriminate) (autoinstall_keys _ _ _ E6)) as I6. destruct (T6 _ _ _ E6) as (P6 & _ & _ & ND6). specialize (ND6 ND5).
  apply mbind_inv in E as (ha & k7 & E7 & E).
  assert (T7 : touches (eq "handlers") parse_handlers) by (unfold parse_handlers; touch).
  assert (I7 : INV kf cu k7).
  { eapply (INV_step kf cu (String.eqb "handlers")); [exact I6|exact E7|now apply touches_eqb|].
    intros h l0 EH HG KG. apply String.eqb_eq in EH. subst h. eexists. split; [apply KHandlers|]. fold cu.
    unfold kf_keys. rewrite HG. pose proof (handlers_sec_keys _ _ _ E7 _ KG) as HK. unfold expect in HK. cbn [String.eqb Ascii.eqb Bool.eqb andb] in HK.
    rewrite String.eqb_refl in HK || idtac. unfold handler_keys. fold cu. intros k Hk. apply in_or_app. destruct cu.
    - cbn [andb] in HK. destruct (drop_keys_in ["bootloader-custom-backend"] _ _ Hk) as [K|K]; [right; exact K|left; exact (HK _ K)].
    - left. exact (HK _ Hk). }
  destruct (T7 _ _ _ E7) as (P7 & _ & _ & ND7). specialize (ND7 ND6).
  apply mbind_inv in E as (lg & k8 & E8 & E).
  assert (T8 : touches (fun g => has_prefix "log." g = true) (parse_loggers (y_data_directory y))).
  { unfold parse_loggers. apply touches_bind; [apply touches_groups|]. intros gs. apply touches_mmap. intros g _.
    destruct (has_prefix "log." g) eqn:PG; [|apply touches_ret]. apply touches_some. eapply touches_weaken; [|apply touches_parse_logger]. intros h <-. exact PG. }
  destruct (loggers_loop _ _ _ _ ND7 E8) as (LK & LM).
  assert (I8 : INV kf cu k8).
  { eapply (INV_step kf cu (has_prefix "log.")); [exact I7|exact E8|exact T8|].
    intros g l0 PG HG KG. apply has_prefix_spec in PG as (n & ->). eexists. split; [apply KLog|]. unfold kf_keys. rewrite HG.
    unfold expect in KG. destruct (String.eqb_spec ("log." ++ n) "handlers") as [K|_]; [discriminate|]. cbn [andb] in KG. apply (LK _ _ KG). apply has_prefix_app. }
  destruct (T8 _ _ _ E8) as (P8 & _ & _ & ND8). specialize (ND8 ND7).
  apply mbind_inv in E as (sl & k9 & E9 & E). rewrite YB in E9.
  assert (T9 : touches (fun g => first_is (g_strsplit "." g) "slot" = true) (parse_slots (file_string kf "system" "bootloader"))).
  { unfold parse_slots. apply touches_bind; [apply touches_groups|]. intros gs. apply touches_mmap. intros g _. cbv zeta.
    destruct (first_is (g_strsplit "." g) "slot") eqn:PG; [|apply touches_ret]. apply touches_some. eapply touches_weaken; [|apply touches_parse_slot]. intros h <-. exact PG. }
  destruct (slots_loop _ _ _ _ ND8 E9) as (SL1 & SL2 & SL3).
  assert (SAME : forall n, kf_group k8 ("slot." ++ n) = kf_group kf ("slot." ++ n)).
  { intros n. rewrite P8 by discriminate. rewrite P7, P6, P5, P4, P3, P2, P1 by discriminate. apply P0. intros [K|K]; discriminate. }
  assert (I9 : INV kf cu k9).
  { eapply (INV_step kf cu (fun g => first_is (g_strsplit "." g) "slot")); [exact I8|exact E9|exact T9|].
    intros g l0 PG HG KG. unfold expect in KG.
    destruct (String.eqb_spec g "handlers") as [->|_]; [discriminate PG|]. cbn [andb] in KG.
    destruct (SL2 _ _ KG PG) as (cl & ix & s & Hs & -> & N1 & N2 & SS). eexists. split; [apply KSlot; assumption|].
    unfold kf_keys. rewrite HG. destruct SS as (_ & _ & _ & TY & _ & _ & _ & _ & _ & _ & _ & _ & _ & _ & KS).
    rewrite TY in KS. rewrite (v_str_file kf ("slot." ++ cl ++ "." ++ ix) l0 "type" HG) in KS. exact KS. }
  destruct (T9 _ _ _ E9) as (P9 & _ & _ & ND9). specialize (ND9 ND8).
  apply mbind_inv in E as (pa & k10 & E10 & E).
  destruct (resolve_parents sl (o1 sl) (o2 sl)) as [pa'| |] eqn:RP; cbn in E10; try discriminate. apply Ok_inj in E10. injection E10 as <- <-.
  apply mbind_inv in E as (re & k11 & E11 & E).
  assert (T11 : touches (fun g => first_is (g_strsplit "." g) "artifacts" = true) parse_repos).
  { unfold parse_repos. apply touches_bind; [apply touches_groups|]. intros gs. apply touches_mmap. intros g _. cbv zeta.
    destruct (first_is (g_strsplit "." g) "artifacts") eqn:PG; [|apply touches_ret]. apply touches_some. eapply touches_weaken; [|apply touches_parse_repo]. intros h <-. exact PG. }
  pose proof (repos_loop _ _ _ ND9 E11) as RL.
  assert (I11 : INV kf cu k11).
  { eapply (INV_step kf cu (fun g => first_is (g_strsplit "." g) "artifacts")); [exact I9|exact E11|exact T11|].
    intros g l0 PG HG KG. unfold expect in KG.
    destruct (String.eqb_spec g "handlers") as [->|_]; [discriminate PG|]. cbn [andb] in KG.
    destruct (RL _ _ KG PG) as (n & -> & N1 & KS & _). eexists. split; [now apply KArtifacts|]. unfold kf_keys. rewrite HG. exact KS. }
  apply mbind_inv in E as (u & k12 & E12 & E). unfold check_groups in E12. destruct k11; [|discriminate]. apply ret_inv in E as (-> & ->).
  cbn [f_slots f_parent]. split; [|exact RP]. split; cbn [f_system f_slots f_loggers].
  - exists l. auto.
  - intros g Hg. destruct (kf_in_group _ _ Hg) as (l0 & HG). destruct (I11 g l0 HG) as [K|K]; [exact K|discriminate].
  - rewrite YB. intros s Hs. destruct (SL1 s Hs) as (cl & ix & l0 & N1 & N2 & HG & SS). exists cl, ix, l0. rewrite SAME in HG. auto.
  - intros n Hn. destruct (kf_in_group _ _ Hn) as (l0 & HG). rewrite <- SAME in HG. destruct (SL2 _ _ HG (slot_prefix n)) as (cl & ix & s & Hs & G & _ & _ & SS).
    apply in_map_iff. exists s. split; [|exact Hs]. rewrite (slot_sem_name _ _ _ _ _ SS). cbn in G. now injection G.
  - exact SL3.
  - exact LM.
Qed.
