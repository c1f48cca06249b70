(** Proofs for C54 and C55. *)
From Coq Require Import Permutation.
From Verif Require Import Base BaseLemmas KeyFile KeyFileLemmas EnvKey Nbd NbdSpec NbdProofs NbdConfig NbdConfigSpec NbdConfigProofs.
From Verif Require Import Slot Image Install Config ConfigSpec ConfigFinal Context ContextSpec.
From Verif Require Manifest.

(** * C54: the configuration *)

Lemma find_path_spec : forall present, chosen_path present (find_path present search_paths "").
Proof.
  intros present. unfold search_paths, find_path, chosen_path.
  destruct (present "/etc/rauc/system.conf") eqn:A.
  { exists [], ["/run/rauc/system.conf"; "/usr/lib/rauc/system.conf"]. repeat split; auto. intros q []. }
  destruct (present "/run/rauc/system.conf") eqn:B.
  { exists ["/etc/rauc/system.conf"], ["/usr/lib/rauc/system.conf"]. repeat split; auto. intros q [<-|[]]. exact A. }
  exists ["/etc/rauc/system.conf"; "/run/rauc/system.conf"], [].
  destruct (present "/usr/lib/rauc/system.conf"); (split; [reflexivity|]; split; [intros q [<-|[<-|[]]]; assumption|auto]).
Qed.

Lemma chosen_find : forall present p, chosen_path present p -> p = find_path present search_paths "".
Proof.
  intros present p (b & a & E & N1 & P). unfold search_paths in *.
  destruct b as [|x [|y [|z [|w b]]]]; cbn [app] in E; try discriminate.
  - assert (p = "/etc/rauc/system.conf") as -> by congruence. cbn [find_path].
    destruct P as [->| ->]; [reflexivity|discriminate].
  - assert (p = "/run/rauc/system.conf") as -> by congruence. assert (x = "/etc/rauc/system.conf") as -> by congruence.
    cbn [find_path]. rewrite (N1 "/etc/rauc/system.conf") by (now left). destruct P as [->| ->]; [reflexivity|discriminate].
  - assert (p = "/usr/lib/rauc/system.conf") as -> by congruence. assert (x = "/etc/rauc/system.conf") as -> by congruence.
    assert (y = "/run/rauc/system.conf") as -> by congruence.
    cbn [find_path]. rewrite (N1 "/etc/rauc/system.conf") by (now left). rewrite (N1 "/run/rauc/system.conf") by (right; now left).
    destruct (present _); reflexivity.
Qed.

Lemma c54_file_ok : forall o1 o2 o3 present files cl x p, configure o1 o2 o3 present files cl = Ok x -> x_source x = Some p ->
  config_path present cl p /\
  exists kf, files p = CKeyFile kf /\ load_config o1 o2 o3 (apply_overrides (cl_overrides cl) kf) = Ok (x_config x).
Proof.
  intros o1 o2 o3 present files cl x p H S1. unfold configure in H. unfold config_path.
  assert (L : forall q t, match load_path o1 o2 o3 (cl_overrides cl) (files q) with LOk c => x = make_context cl c (Some q) t | _ => False end ->
    p = q /\ exists kf, files p = CKeyFile kf /\ load_config o1 o2 o3 (apply_overrides (cl_overrides cl) kf) = Ok (x_config x)).
  { intros q t Hq. unfold load_path in Hq. destruct (files q) as [| | |kf] eqn:F; try contradiction.
    destruct (load_config o1 o2 o3 (apply_overrides (cl_overrides cl) kf)) as [c| |] eqn:E; try contradiction.
    subst x. cbn in S1. assert (p = q) as -> by congruence. split; [reflexivity|]. exists kf. cbn. auto. }
  assert (D : (do c <- default_config o1 o2 (cl_overrides cl);; Ok (make_context cl c None false)) = Ok x -> False).
  { intros E. destruct (default_config o1 o2 (cl_overrides cl)) as [c| |]; try discriminate. cbn [bind] in E.
    apply Ok_inj in E. subst x. discriminate. }
  destruct (cl_config cl) as [q|].
  - destruct (load_path o1 o2 o3 (cl_overrides cl) (files q)) as [c| | | |] eqn:E; try discriminate.
    apply Ok_inj in H. apply (L q true). rewrite E. now symmetry.
  - destruct (cl_mode cl).
    + now apply D in H.
    + pose proof (find_path_spec present) as FP. set (q := find_path present search_paths "") in *.
      destruct (load_path o1 o2 o3 (cl_overrides cl) (files q)) as [c| | | |] eqn:E; try discriminate; try (now apply D in H).
      apply Ok_inj in H. destruct (L q false) as (-> & K); [rewrite E; now symmetry|]. split; [split; [discriminate|exact FP]|exact K].
    + pose proof (find_path_spec present) as FP. set (q := find_path present search_paths "") in *.
      destruct (load_path o1 o2 o3 (cl_overrides cl) (files q)) as [c| | | |] eqn:E; try discriminate.
      apply Ok_inj in H. destruct (L q true) as (-> & K); [rewrite E; now symmetry|]. split; [split; [discriminate|exact FP]|exact K].
Qed.

Lemma c54_defaults_ok : forall o1 o2 o3 present files cl x, configure o1 o2 o3 present files cl = Ok x -> x_source x = None ->
  cl_config cl = None /\
  (cl_mode cl = ModeNone \/
   cl_mode cl = ModeAuto /\ exists p, chosen_path present p /\ (files p = CUnreadable \/ files p = CEmptyFile)) /\
  default_config o1 o2 (cl_overrides cl) = Ok (x_config x).
Proof.
  intros o1 o2 o3 present files cl x H S1. unfold configure in H.
  assert (D : (do c <- default_config o1 o2 (cl_overrides cl);; Ok (make_context cl c None false)) = Ok x ->
     default_config o1 o2 (cl_overrides cl) = Ok (x_config x)).
  { intros E. destruct (default_config o1 o2 (cl_overrides cl)) as [c| |]; try discriminate. cbn [bind] in E.
    apply Ok_inj in E. subst x. reflexivity. }
  destruct (cl_config cl) as [q|].
  - destruct (load_path o1 o2 o3 (cl_overrides cl) (files q)); try discriminate. apply Ok_inj in H. subst x. discriminate.
  - split; [reflexivity|]. destruct (cl_mode cl).
    + auto.
    + pose proof (find_path_spec present) as FP. set (q := find_path present search_paths "") in *.
      unfold load_path in H. destruct (files q) as [| | |kf] eqn:F; try discriminate.
      * split; [|auto]. right. split; [reflexivity|]. exists q. auto.
      * split; [|auto]. right. split; [reflexivity|]. exists q. auto.
      * destruct (load_config _ _ _ _); try discriminate. apply Ok_inj in H. subst x. discriminate.
    + destruct (load_path _ _ _ _ _); try discriminate. apply Ok_inj in H. subst x. discriminate.
Qed.

Lemma c54_complete_ok : forall o1 o2 o3 present files cl p kf c, config_path present cl p ->
  files p = CKeyFile kf -> load_config o1 o2 o3 (apply_overrides (cl_overrides cl) kf) = Ok c ->
  exists x, configure o1 o2 o3 present files cl = Ok x /\ x_source x = Some p /\ x_config x = c.
Proof.
  intros o1 o2 o3 present files cl p kf c HP F L. unfold configure, config_path in *.
  destruct (cl_config cl) as [q|].
  - subst q. unfold load_path. rewrite F, L. eexists. split; [reflexivity|]. auto.
  - destruct HP as (M & HP). apply chosen_find in HP. rewrite <- HP. unfold load_path. rewrite F, L.
    destruct (cl_mode cl); [congruence| |]; (eexists; split; [reflexivity|auto]).
Qed.

Lemma c54_target_ok : forall o1 o2 o3 present files cl x, configure o1 o2 o3 present files cl = Ok x ->
  (x_target x = true <-> cl_config cl <> None \/ cl_mode cl = ModeRequired).
Proof.
  intros o1 o2 o3 present files cl x H. unfold configure in H.
  assert (D : (do c <- default_config o1 o2 (cl_overrides cl);; Ok (make_context cl c None false)) = Ok x -> x_target x = false).
  { intros E. destruct (default_config o1 o2 (cl_overrides cl)) as [c| |]; try discriminate. cbn [bind] in E.
    apply Ok_inj in E. subst x. reflexivity. }
  destruct (cl_config cl) as [q|].
  - destruct (load_path _ _ _ _ _); try discriminate. apply Ok_inj in H. subst x. cbn. split; [left; discriminate|reflexivity].
  - destruct (cl_mode cl).
    + apply D in H. rewrite H. split; [discriminate|intros [A|A]; [congruence|discriminate]].
    + assert (x_target x = false) as ->.
      { destruct (load_path _ _ _ _ _); try discriminate; auto. apply Ok_inj in H. now subst x. }
      split; [discriminate|intros [A|A]; [congruence|discriminate]].
    + destruct (load_path _ _ _ _ _); try discriminate. apply Ok_inj in H. subst x. cbn. split; auto.
Qed.

Lemma c54_cmdline_ok : forall o1 o2 o3 present files cl x, configure o1 o2 o3 present files cl = Ok x ->
  (forall m, cl_mount cl = Some m -> x_mountprefix x = m) /\
  (cl_mount cl = None -> x_mountprefix x = y_mountprefix (f_system (x_config x))) /\
  (forall k, cl_keyring cl = Some k -> x_keyring x = Some k) /\
  (cl_keyring cl = None -> x_keyring x = k_path (f_keyring (x_config x))) /\
  (forall k, cl_keydir cl = Some k -> x_keydir x = Some k) /\
  (cl_keydir cl = None -> x_keydir x = k_directory (f_keyring (x_config x))).
Proof.
  intros o1 o2 o3 present files cl x H.
  assert (exists c src t, x = make_context cl c src t) as (c & src & t & ->).
  { unfold configure in H.
    assert (D : (do c <- default_config o1 o2 (cl_overrides cl);; Ok (make_context cl c None false)) = Ok x -> exists c src t, x = make_context cl c src t).
    { intros E. destruct (default_config o1 o2 (cl_overrides cl)) as [c| |]; try discriminate. cbn [bind] in E.
      apply Ok_inj in E. subst x. eauto. }
    destruct (cl_config cl) as [q|]; [|destruct (cl_mode cl)]; auto;
      destruct (load_path _ _ _ _ _); try discriminate; auto; apply Ok_inj in H; subst x; eauto. }
  unfold make_context, pick. cbn. repeat split; intros; try match goal with HH : _ = Some _ |- _ => rewrite HH end; try match goal with HH : _ = None |- _ => rewrite HH end; reflexivity.
Qed.

(** ** overrides *)
Lemma apply_app : forall a b kf, apply_overrides (a ++ b) kf = apply_overrides b (apply_overrides a kf).
Proof. intros a b kf. unfold apply_overrides. now rewrite fold_left_app. Qed.

Lemma c54_override_ok : forall ovs kf g k, kf_get (apply_overrides ovs kf) g k =
  match last_override ovs g k with Some v => Some v | None => kf_get kf g k end.
Proof.
  intros ovs. induction ovs as [|o ovs IH] using rev_ind; intros kf g k; [reflexivity|].
  rewrite apply_app. unfold last_override. rewrite rev_app_distr. cbn [rev app find apply_overrides fold_left].
  destruct (String.eqb_spec (ov_section o) g) as [->|N1]; cbn [andb].
  - destruct (String.eqb_spec (ov_name o) k) as [->|N2]; cbn [andb].
    + apply kf_get_set_eq.
    + rewrite kf_get_set_neq by auto. apply IH.
  - rewrite kf_get_set_neq by auto. apply IH.
Qed.

Lemma c54_parse_override_ok : forall s k v, no_char "=" s = true -> no_char ":" s = true -> no_char "=" k = true ->
  parse_override (s ++ ":" ++ k ++ "=" ++ v) = Some (mkOverride s k v).
Proof.
  intros s k v H1 H2 H3. unfold parse_override.
  replace (s ++ ":" ++ k ++ "=" ++ v)%string with ((s ++ String ":" k) ++ String "=" v)%string.
  2:{ cbn [String.append]. now rewrite sapp_assoc. }
  rewrite strsplit2_make.
  2:{ unfold no_char in *. rewrite all_chars_app, H1. cbn [all_chars]. rewrite H3. reflexivity. }
  change (s ++ String ":" k)%string with (s ++ String ":" k)%string.
  rewrite strsplit2_make by exact H2. reflexivity.
Qed.

Lemma kf_set_groups : forall kf g k v, NoDup (kf_groups kf) -> NoDup (kf_groups (kf_set kf g k v)).
Proof.
  intros kf g k v H. unfold kf_groups, kf_set in *. rewrite assoc_set_keys.
  destruct (existsb (String.eqb g) (map fst kf)) eqn:E; [exact H|].
  apply (Permutation_NoDup (Permutation_cons_append (map fst kf) g)). constructor; [|exact H].
  intros I1. assert (existsb (String.eqb g) (map fst kf) = true) as X; [|congruence].
  apply existsb_exists. exists g. split; [exact I1|apply String.eqb_refl].
Qed.
Lemma apply_groups : forall ovs kf, NoDup (kf_groups kf) -> NoDup (kf_groups (apply_overrides ovs kf)).
Proof.
  induction ovs as [|o ovs IH]; intros kf H; [exact H|]. cbn. apply IH. now apply kf_set_groups.
Qed.

(** an example of what follows: the compatible given on the command line counts *)
Lemma c54_compatible_ok : forall o1 o2 o3 present files cl x p kf v, configure o1 o2 o3 present files cl = Ok x ->
  x_source x = Some p -> files p = CKeyFile kf -> NoDup (kf_groups kf) ->
  last_override (cl_overrides cl) "system" "compatible" = Some v ->
  y_compatible (f_system (x_config x)) = Some v.
Proof.
  intros o1 o2 o3 present files cl x p kf v H S1 F ND O.
  destruct (c54_file_ok _ _ _ _ _ _ _ _ H S1) as (_ & kf' & F' & L). assert (kf' = kf) as -> by congruence.
  destruct (c47_system_ok _ _ _ _ _ (apply_groups (cl_overrides cl) kf ND) L) as ((w & A & B) & _).
  unfold file_string in B. rewrite c54_override_ok, O in B. rewrite A. destruct v; [discriminate|exact (eq_sym B) || congruence].
Qed.

(** * C55: the variant *)
Lemma chug_spec : forall s, exists a, s = (a ++ chug s)%string /\ space_only a /\ (forall c r, chug s = String c r -> g_isspace c = false).
Proof.
  induction s as [|c r IH].
  - exists "". repeat split. discriminate.
  - cbn [chug]. destruct (g_isspace c) eqn:E.
    + destruct IH as (a & A & B & C). exists (String c a). cbn [String.append]. rewrite <- A. repeat split; auto.
      unfold space_only in *. cbn. now rewrite E.
    + exists "". repeat split. intros c' r' X. assert (c' = c) as -> by congruence. exact E.
Qed.

Lemma snoc_inj : forall a b x y, (a ++ String x "")%string = (b ++ String y "")%string -> a = b /\ x = y.
Proof.
  induction a as [|c a IH]; intros [|d b] x y H; cbn in H.
  - split; congruence.
  - exfalso. injection H as _ H. destruct b; discriminate.
  - exfalso. injection H as _ H. destruct a; discriminate.
  - assert (c = d) as -> by congruence. destruct (IH b x y) as (-> & ->); [congruence|auto].
Qed.

Lemma chomp_spec : forall s, exists b, s = (chomp s ++ b)%string /\ space_only b /\ (forall c r, chomp s = (r ++ String c "")%string -> g_isspace c = false).
Proof.
  induction s as [|x r IH].
  - exists "". repeat split. intros c [|]; discriminate.
  - cbn [chomp]. destruct IH as (b & A & B & C). destruct (chomp r) as [|y t] eqn:E.
    + destruct (g_isspace x) eqn:X.
      * exists (String x b). cbn [String.append] in A |- *. rewrite <- A. repeat split.
        -- unfold space_only in *. cbn [all_chars]. rewrite X, A. exact B.
        -- intros c [|]; discriminate.
      * exists b. cbn [String.append] in A |- *. rewrite <- A. repeat split; [rewrite A; exact B|].
        intros c [|z w] K; cbn in K; [congruence|destruct w; discriminate].
    + exists b. cbn [String.append] in A |- *. rewrite <- A. repeat split; [exact B|].
      intros c [|z w] K; cbn in K; [discriminate|]. apply (C c w). congruence.
Qed.

Lemma strstrip_ok : forall s, trimmed s (strstrip s).
Proof.
  intros s. unfold strstrip. destruct (chug_spec s) as (a & A & B & C). destruct (chomp_spec (chug s)) as (b & D & E & F).
  exists a, b. rewrite <- D. repeat split; auto.
  intros c r K. rewrite K in D. cbn in D. eapply C. exact D.
Qed.

Lemma snil : forall s : string, (s ++ "")%string = s.
Proof. induction s as [|c s IH]; cbn; congruence. Qed.
Lemma trimmed_unique : forall s t u, trimmed s t -> trimmed s u -> t <> "" -> t = u.
Proof.
  assert (P : forall a t b a' u b', (a ++ t ++ b)%string = (a' ++ u ++ b')%string -> space_only a -> space_only a' ->
    t <> "" -> (forall c r, t = String c r -> g_isspace c = false) ->
    space_only b' -> (forall c r, u = String c r -> g_isspace c = false) -> (t ++ b)%string = (u ++ b')%string).
  { induction a as [|c a IH]; intros t b [|c' a'] u b' H S1 S2 Ht T S3 U; cbn in H.
    - exact H.
    - exfalso. destruct t as [|x t]; [congruence|]. cbn in H. injection H as -> _. specialize (T _ _ eq_refl).
      unfold space_only in S2. cbn in S2. rewrite T in S2. discriminate.
    - exfalso. destruct u as [|x u].
      + cbn in H. assert (space_only (String c (a ++ t ++ b))) as K by (rewrite H; exact S3).
        unfold space_only in K. cbn in K. apply andb_prop in K as [_ K]. rewrite !all_chars_app in K.
        apply andb_prop in K as [_ K]. apply andb_prop in K as [K _]. destruct t as [|y t]; [congruence|].
        cbn in K. rewrite (T _ _ eq_refl) in K. discriminate.
      + cbn in H. injection H as -> _. specialize (U _ _ eq_refl). unfold space_only in S1. cbn in S1. rewrite U in S1. discriminate.
    - injection H as -> H. unfold space_only in S1, S2. cbn in S1, S2. apply andb_prop in S1 as [_ S1]. apply andb_prop in S2 as [_ S2].
      eapply IH; eauto. }
  assert (Q : forall t u b b', (t ++ b)%string = (u ++ b')%string -> space_only b -> space_only b' ->
    (forall c r, t = (r ++ String c "")%string -> g_isspace c = false) -> (forall c r, u = (r ++ String c "")%string -> g_isspace c = false) -> t = u).
  { assert (R : forall t u b b', (t ++ b)%string = (u ++ b')%string -> exists w, t = (u ++ w)%string /\ b' = (w ++ b)%string \/ u = (t ++ w)%string /\ b = (w ++ b')%string).
    { induction t as [|x t IH]; intros u b b' H.
      - exists u. right. cbn in *. auto.
      - destruct u as [|y u].
        + exists (String x t). left. cbn in *. auto.
        + cbn in H. injection H as -> H. destruct (IH _ _ _ H) as (w & [(-> & ->)|(-> & ->)]); exists w; [left|right]; auto. }
    assert (L : forall w, w <> "" -> exists r c, w = (r ++ String c "")%string).
    { induction w as [|c w IH]; intros N; [congruence|]. destruct w as [|d w]; [exists "", c; reflexivity|].
      destruct IH as (r & c' & E); [discriminate|]. exists (String c r), c'. cbn. now rewrite <- E. }
    assert (Z : forall w b u, space_only (w ++ b) -> (forall c r, (u ++ w)%string = (r ++ String c "")%string -> g_isspace c = false) -> w = "").
    { intros w b u S1 N. destruct w as [|c w]; [reflexivity|exfalso]. destruct (L (String c w)) as (r & c' & E); [discriminate|].
      rewrite E in *. specialize (N c' (u ++ r)%string). rewrite sapp_assoc in N. specialize (N eq_refl).
      unfold space_only in S1. rewrite !all_chars_app in S1. cbn in S1. rewrite N in S1. cbn in S1. rewrite andb_false_r in S1. discriminate. }
    intros t u b b' H S1 S2 T U. destruct (R _ _ _ _ H) as (w & [(-> & ->)|(-> & ->)]).
    - rewrite (Z w b u S2 T). apply snil.
    - rewrite (Z w b' t S1 U). symmetry. apply snil. }
  intros s t u (a & b & E & Sa & Sb & T1 & T2) (a' & b' & E' & Sa' & Sb' & U1 & U2) Ht.
  rewrite E in E'. eapply Q; [eapply P| | | |]; eauto.
Qed.

(** ** the handler's variables *)
Definition var_step (l : string) (vars : list (string * string)) : list (string * string) :=
  if has_prefix "RAUC_" l
  then match g_strsplit_max "=" 2 l with [k; v] => assoc_set k v vars | _ => vars end
  else vars.

Lemma read_vars_snoc : forall a l vars, read_vars (a ++ [l]) vars = var_step l (read_vars a vars).
Proof. induction a as [|x a IH]; intros l vars; cbn [read_vars app]; [reflexivity|]. apply IH. Qed.

Lemma has_prefix_app : forall p s t, has_prefix p s = true -> has_prefix p (s ++ t) = true.
Proof.
  induction p as [|c p IH]; intros [|d s] t H; cbn in *; auto; try discriminate.
  apply andb_prop in H as [-> H]. cbn. now apply IH.
Qed.

Lemma var_step_hit : forall k v vars, has_prefix "RAUC_" k = true -> no_char "=" k = true ->
  assoc k (var_step (k ++ "=" ++ v) vars) = Some v.
Proof.
  intros k v vars H1 H2. unfold var_step. rewrite has_prefix_app by exact H1.
  change (k ++ "=" ++ v)%string with (k ++ String "=" v)%string. rewrite strsplit2_make by exact H2. apply assoc_set_eq.
Qed.

Lemma var_step_miss : forall k l vars, (forall v, ~ var_line k v l) -> assoc k (var_step l vars) = assoc k vars.
Proof.
  intros k l vars H. unfold var_step. destruct (has_prefix "RAUC_" l); [|reflexivity].
  destruct (g_strsplit_max "=" 2 l) as [|k' [|v [|]]] eqn:E; try reflexivity.
  apply strsplit2_some in E as (-> & E). apply assoc_set_neq. intros ->. now apply (H v).
Qed.

Lemma read_vars_hit : forall lines k v vars before after l, has_prefix "RAUC_" k = true -> no_char "=" k = true ->
  lines = before ++ l :: after -> var_line k v l -> (forall l' v', In l' after -> ~ var_line k v' l') ->
  assoc k (read_vars lines vars) = Some v.
Proof.
  intros lines k v vars before after l H1 H2. revert lines. induction after as [|x after IH] using rev_ind; intros lines E L N.
  - subst lines. rewrite read_vars_snoc, L. now apply var_step_hit.
  - subst lines. replace (before ++ l :: after ++ [x]) with ((before ++ l :: after) ++ [x]) by (now rewrite <- app_assoc).
    rewrite read_vars_snoc, var_step_miss.
    + apply IH; auto. intros l' v' I1. apply N, in_or_app. now left.
    + intros v'. apply N, in_or_app. right. now left.
Qed.

Lemma read_vars_miss : forall lines k vars, (forall l v, In l lines -> ~ var_line k v l) -> assoc k (read_vars lines vars) = assoc k vars.
Proof.
  intros lines k vars. induction lines as [|x lines IH] using rev_ind; intros N; [reflexivity|].
  rewrite read_vars_snoc, var_step_miss.
  - apply IH. intros l v I1. apply N, in_or_app. now left.
  - intros v'. apply N, in_or_app. right. now left.
Qed.

(** what the variables of the handler are used for *)
Lemma c55_handler_ok : forall v dtb file text var serial version, configure_info v dtb file (Output text true) = Ok (var, serial, version) ->
  (forall s, handler_var text "RAUC_SYSTEM_VARIANT" s -> exists t, var = Some t /\ trimmed s t) /\
  (no_handler_var text "RAUC_SYSTEM_VARIANT" -> configure_info v dtb file NoHandler = Ok (var, None, None)) /\
  (forall s, handler_var text "RAUC_SYSTEM_SERIAL" s -> serial = Some s) /\
  (no_handler_var text "RAUC_SYSTEM_SERIAL" -> serial = None) /\
  (forall s, handler_var text "RAUC_SYSTEM_VERSION" s -> version = Some s) /\
  (no_handler_var text "RAUC_SYSTEM_VERSION" -> version = None).
Proof.
  intros v dtb file text var serial version H. unfold configure_info in *. cbn [system_info bind] in *.
  set (vars := read_vars (split_on "010" text) []) in *.
  assert (A : forall k s, has_prefix "RAUC_" k = true -> no_char "=" k = true -> handler_var text k s -> assoc k vars = Some s).
  { intros k s P Q (b & a & l & E & L & N). eapply read_vars_hit; eassumption. }
  assert (B : forall k, no_handler_var text k -> assoc k vars = None).
  { intros k N. unfold vars. rewrite read_vars_miss by exact N. reflexivity. }
  apply Ok_inj in H. repeat split.
  - intros s K. apply A in K; [|reflexivity|reflexivity]; rewrite K in H. exists (strstrip s). split; [congruence|apply strstrip_ok].
  - intros K. rewrite (B _ K) in H. cbn [assoc]. f_equal. congruence.
  - intros s K. apply A in K; [|reflexivity|reflexivity]; rewrite K in H. congruence.
  - intros K. rewrite (B _ K) in H. congruence.
  - intros s K. apply A in K; [|reflexivity|reflexivity]; rewrite K in H. congruence.
  - intros K. rewrite (B _ K) in H. congruence.
Qed.

Lemma c55_handler_fails_ok : forall v dtb file h, (h = NotStarted \/ exists text, h = Output text false) ->
  configure_info v dtb file h = Err.
Proof. intros v dtb file h [->|(text & ->)]; reflexivity. Qed.

Lemma cstring_text : forall s, text_only s -> cstring s = s.
Proof.
  induction s as [|c s IH]; intros H; [reflexivity|]. unfold text_only, no_char in H. cbn [all_chars cstring] in *.
  apply andb_prop in H as [H1 H2]. apply negb_true_iff in H1. rewrite H1, IH; [reflexivity|exact H2].
Qed.
Lemma cstring_first : forall s r, text_only s -> cstring (s ++ String Ascii.zero r) = s.
Proof.
  induction s as [|c s IH]; intros r H; [reflexivity|]. unfold text_only, no_char in H. cbn [all_chars cstring String.append] in *.
  apply andb_prop in H as [H1 H2]. apply negb_true_iff in H1. rewrite H1, IH; [reflexivity|exact H2].
Qed.
Lemma drop_newline_cases : forall s, drop_newline s = s \/ s = (drop_newline s ++ String "010" "")%string.
Proof.
  induction s as [|c s IH]; [now left|]. cbn [drop_newline]. destruct s as [|d s].
  - destruct (Ascii.eqb_spec c "010") as [->|]; [right|left]; reflexivity.
  - destruct IH as [->|IH]; [now left|]. right. cbn [String.append]. now rewrite <- IH.
Qed.
Lemma trimmed_newline : forall s t, trimmed (drop_newline s) t -> trimmed s t.
Proof.
  intros s t (a & b & E & Sa & Sb & T1 & T2). destruct (drop_newline_cases s) as [D|D].
  - exists a, b. rewrite <- D. auto.
  - exists a, (b ++ String "010" "")%string. rewrite D, E. rewrite !sapp_assoc. repeat split; auto.
    unfold space_only in *. rewrite all_chars_app, Sb. reflexivity.
Qed.
Lemma drop_newline_text : forall s, text_only s -> text_only (drop_newline s).
Proof.
  intros s H. destruct (drop_newline_cases s) as [D|D]; [now rewrite D|].
  rewrite D in H. unfold text_only, no_char in *. rewrite all_chars_app in H. apply andb_prop in H. tauto.
Qed.

(** where the variant comes from without handler *)
Lemma c55_source_ok : forall v dtb file var serial version, configure_info v dtb file NoHandler = Ok (var, serial, version) ->
  match v with
  | VarNone => var = None
  | VarName n => exists t, var = Some t /\ trimmed n t
  | VarFile f =>
      match file f with
      | Some s => text_only s -> exists t, var = Some t /\ trimmed s t
      | None => var = None
      end
  | VarDtb =>
      match dtb with
      | Some s => forall first rest, text_only first -> s = (first ++ String Ascii.zero rest)%string -> exists t, var = Some t /\ trimmed first t
      | None => var = None
      end
  end /\ serial = None /\ version = None.
Proof.
  intros v dtb file var serial version H. unfold configure_info in H. cbn [system_info bind assoc] in H. apply Ok_inj in H.
  split; [|split; congruence]. destruct v as [| |f|n].
  - congruence.
  - destruct dtb as [s|]; [|congruence]. intros first rest T ->. rewrite cstring_first in H by exact T.
    exists (strstrip first). split; [congruence|apply strstrip_ok].
  - destruct (file f) as [s|]; [|congruence]. intros T. rewrite cstring_text in H by (now apply drop_newline_text).
    exists (strstrip (drop_newline s)). split; [congruence|]. apply trimmed_newline, strstrip_ok.
  - exists (strstrip n). split; [congruence|apply strstrip_ok].
Qed.

(** the variant decides which image is installed *)
Lemma match_image_variant : forall var cls imgs best i, match_image var cls imgs best = Some i ->
  (forall b, best = Some b -> im_class b = cls /\ im_variant b = None) ->
  im_class i = cls /\
  ((exists t, im_variant i = Some t /\ var = Some t) \/
   im_variant i = None /\ forall j t, In j imgs -> im_class j = cls -> im_variant j = Some t -> var <> Some t).
Proof.
  intros var cls. induction imgs as [|x imgs IH]; intros best i H B.
  - cbn in H. destruct (B _ H) as (A & C). split; [exact A|]. right. split; [exact C|]. intros j t [].
  - cbn in H. destruct (String.eqb_spec (im_class x) cls) as [E|N]; cbn [negb] in H.
    + destruct (im_variant x) as [w|] eqn:V.
      * destruct var as [u|].
        -- destruct (String.eqb_spec w u) as [->|N].
           ++ assert (x = i) as -> by congruence. split; [exact E|]. left. eauto.
           ++ destruct (IH _ _ H B) as (A & [C|(C & D)]); (split; [exact A|]); [now left|right]. split; [exact C|].
              intros j t [<-|I1] J1 J2; [|now apply (D j t)]. intros X. congruence.
        -- destruct (IH _ _ H B) as (A & [C|(C & D)]); (split; [exact A|]); [now left|right]. split; [exact C|].
           intros j t _ _ _ X. discriminate.
      * destruct (IH _ _ H) as (A & [C|(C & D)]).
        -- intros b X. destruct best as [b0|]; [now apply B|]. assert (b = x) as -> by congruence. auto.
        -- split; [exact A|]. now left.
        -- split; [exact A|]. right. split; [exact C|]. intros j t [<-|I1] J1 J2; [congruence|now apply (D j t)].
    + destruct (IH _ _ H B) as (A & [C|(C & D)]); (split; [exact A|]); [now left|right]. split; [exact C|].
      intros j t [<-|I1] J1 J2; [congruence|now apply (D j t)].
Qed.

Lemma c55_images_ok : forall v dtb file h var serial version cls imgs i, configure_info v dtb file h = Ok (var, serial, version) ->
  match_image var cls imgs None = Some i ->
  im_class i = cls /\
  ((exists t, im_variant i = Some t /\ var = Some t) \/
   im_variant i = None /\ forall j t, In j imgs -> im_class j = cls -> im_variant j = Some t -> var <> Some t).
Proof.
  intros v dtb file h var serial version cls imgs i _ H. eapply match_image_variant; [exact H|]. discriminate.
Qed.

(** an empty variant is not "no variant": a handler which prints an empty value hides the configured one *)
Lemma c55_empty_refuted : exists v dtb file h, configure_info v dtb file NoHandler = Ok (Some "board1", None, None) /\
  configure_info v dtb file h = Ok (Some "", None, None).
Proof.
  exists (VarName "board1"), None, (fun _ => None), (Output "RAUC_SYSTEM_VARIANT=" true). split; reflexivity.
Qed.

(** artifact images: the variant is not looked at *)
Definition c55_dg : string := "0123456789abcdef0123456789abcdef0123456789abcdef0123456789abcdef".
Definition c55_kf : keyfile :=
  [("update", [("compatible", "sys")]); ("bundle", [("format", "verity"); ("verity-hash", c55_dg); ("verity-salt", c55_dg); ("verity-size", "4096")]);
   ("image.files/app.board-a", [("filename", "a.img"); ("sha256", c55_dg); ("size", "4")]);
   ("image.files/app.board-b", [("filename", "b.img"); ("sha256", c55_dg); ("size", "4")])].
Lemma c55_artifact_variant_refuted : exists kf m m' ps p n, Manifest.parse_manifest kf = Ok m /\ Manifest.check_external "1.14" m = Ok m' /\
  make_plans (Some "board-b") (Manifest.mf_images m') (fun _ => None) ["files"] true = Ok ps /\
  In p ps /\ pl_target p = TRepo "files" /\ im_artifact (pl_image p) = Some n /\ im_variant (pl_image p) = Some "board-a".
Proof.
  exists c55_kf. eexists. eexists. eexists. eexists. exists "app". split; [vm_compute; reflexivity |]. split; [vm_compute; reflexivity |].
  split; [vm_compute; reflexivity |]. split; [left; reflexivity |]. repeat split.
Qed.
