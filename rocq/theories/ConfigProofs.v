From Coq Require Import Permutation.
From Verif Require Import Base BaseLemmas KeyFile KeyFileLemmas Semver Polling Config ConfigSpec ConfigFormats ConfigParents ConfigRead.

(** one reading step: [E] is the equation of the rest, [H] the state of the group *)
Ltac rd E H :=
  let a := fresh "v" in let kf1 := fresh "kf" in let E1 := fresh "E" in let Q := fresh "Q" in
  apply mbind_inv in E as (a & kf1 & E1 & E);
  match type of E1 with
  | guard _ _ = _ => apply guard_inv in E1 as (Q & ->)
  | get_null _ ?k _ = _ => apply (get_null_inv _ _ _ _ k _ _ H eq_refl) in E1 as (-> & H')
  | get_opt _ ?k _ = _ => apply (get_opt_inv _ _ _ _ k _ _ H eq_refl) in E1 as (-> & Q & H')
  | get_req _ ?k _ = _ => apply (get_req_inv _ _ _ _ k _ _ H eq_refl) in E1 as (Q & H')
  | get_size _ ?k _ = _ => apply (get_size_inv _ _ _ _ k _ _ H eq_refl) in E1 as (-> & H')
  | get_bool _ ?k _ _ = _ => apply (get_bool_inv _ _ _ _ k _ _ _ H eq_refl) in E1 as (-> & H')
  | get_int _ ?k _ = _ => apply (get_int_inv _ _ _ _ k _ _ H eq_refl) in E1 as (-> & Q & H')
  | get_u64 _ ?k _ _ = _ => apply (get_u64_inv _ _ _ _ k _ _ _ H eq_refl) in E1 as (Q & H')
  | get_list _ ?k _ = _ => apply (get_list_inv _ _ _ _ k _ _ H eq_refl) in E1 as (-> & H')
  | get_list_allowed _ ?k _ _ = _ => apply (get_list_allowed_inv _ _ _ _ k _ _ _ H eq_refl) in E1 as H'
  | _ => idtac
  end;
  try (clear H; rename H' into H); cbv beta zeta in E.

Lemma install_same_inv g U l kf a kf' : at_ g U l kf ->
  mem U "install-same" = false -> mem U "force-install-same" = false -> mem U "ignore-checksum" = false ->
  parse_install_same g kf = Ok (a, kf') ->
  a = v_bool l "install-same" (v_bool l "force-install-same" (v_bool l "ignore-checksum" true)) /\
  at_ g ("ignore-checksum" :: "force-install-same" :: "install-same" :: U) l kf'.
Proof.
  intros H U1 U2 U3 E. apply mbind_inv in E as (x & kf1 & E1 & E). destruct (peek_bool_inv _ _ _ _ _ _ _ H U1 E1) as (-> & ->).
  apply mbind_inv in E as (r & kf2 & E2 & E).
  assert (R : r = v_bool l "install-same" (v_bool l "force-install-same" (v_bool l "ignore-checksum" true)) /\ kf2 = kf).
  { unfold v_bool. destruct (assoc "install-same" l); [apply ret_inv in E2 as (-> & ->); auto|].
    apply mbind_inv in E2 as (y & kf3 & E3 & E2). destruct (peek_bool_inv _ _ _ _ _ _ _ H U2 E3) as (-> & ->).
    destruct (assoc "force-install-same" l); [apply ret_inv in E2 as (-> & ->); auto|].
    apply mbind_inv in E2 as (z & kf4 & E4 & E2). destruct (peek_bool_inv _ _ _ _ _ _ _ H U3 E4) as (-> & ->).
    apply ret_inv in E2 as (-> & ->). destruct (assoc "ignore-checksum" l); auto. }
  destruct R as (-> & ->).
  apply mbind_inv in E as (? & kf5 & E5 & E). apply (remove_key_inv _ _ _ _ _ _ _ H) in E5.
  apply mbind_inv in E as (? & kf6 & E6 & E). apply (remove_key_inv _ _ _ _ _ _ _ E5) in E6.
  apply mbind_inv in E as (? & kf7 & E7 & E). apply (remove_key_inv _ _ _ _ _ _ _ E6) in E7.
  apply ret_inv in E as (-> & ->). auto.
Qed.

(** what a slot section means, in terms of its keys *)
Definition slot_sem (bl : option string) (l : group) (cls idx : string) (s : cslot) : Prop :=
  c_name s = (cls ++ "." ++ idx)%string /\ c_class s = cls /\ v_str l "device" = Some (c_device s) /\
  c_type s = sdef (v_str l "type") "raw" /\ mem slot_types (c_type s) = true /\
  c_bootname s = v_str l "bootname" /\ c_parent_name s = v_str l "parent" /\
  c_allow_mounted s = v_bool l "allow-mounted" false /\ c_readonly s = v_bool l "readonly" false /\
  c_install_same s = v_bool l "install-same" (v_bool l "force-install-same" (v_bool l "ignore-checksum" true)) /\
  c_resize s = v_bool l "resize" false /\
  (forall b, c_bootname s = Some b -> all_chars (fun c => negb (g_isspace c)) b = true) /\
  (mem ["boot-mbr-switch"; "boot-gpt-switch"; "boot-raw-fallback"] (c_type s) = true ->
     exists a b, v_str l "region-start" = Some a /\ v_str l "region-size" = Some b /\ c_region_start s = binary_suffixed a /\ c_region_size s = binary_suffixed b) /\
  (c_type s = "boot-emmc" -> c_size_limit s = match v_str l "size-limit" with Some v => binary_suffixed v | None => 0%N end) /\
  (forall k, In k (map fst l) -> In k (slot_keys bl (c_type s))).

Lemma parse_slot_inv bl g p cls idx l kf s kf' : kf_group kf g = Some l ->
  parse_slot bl g [p; cls; idx] kf = Ok (s, kf') -> slot_sem bl l cls idx s /\ kf_group kf' g = None.
Proof.
  intros HG E. assert (H : at_ g [] l kf) by (unfold at_; now rewrite drop_nil). cbn [parse_slot] in E.
  rd E H. rd E H. rd E H. rd E H. rd E H. rd E H. rd E H. rd E H. rd E H. rd E H. rd E H. rd E H.
  apply mbind_inv in E as (is & kfz & EZ & E). apply (install_same_inv _ _ _ _ _ _ H eq_refl eq_refl eq_refl) in EZ as (-> & H'). clear H. rename H' into H.
  rd E H. rd E H.
  set (ty := sdef (v_str l "type") "raw") in *.
  apply mbind_inv in E as (reg & kfa & EA & E).
  set (isreg := mem ["boot-mbr-switch"; "boot-gpt-switch"; "boot-raw-fallback"] ty) in *.
  assert (HR : exists U', at_ g (U' ++ ["resize"; "extra-mount-opts"; "ignore-checksum"; "force-install-same"; "install-same"; "readonly"; "allow-mounted"; "parent"; "bootname"; "extra-mkfs-opts"; "type"; "device"; "description"]) l kfa /\
     U' = (if isreg then ["region-size"; "region-start"] else []) /\
     (isreg = true -> exists a b, v_str l "region-start" = Some a /\ v_str l "region-size" = Some b /\ fst reg = binary_suffixed a /\ snd reg = binary_suffixed b)).
  { destruct isreg.
    - rd EA H. rd EA H. exists ["region-size"; "region-start"]. destruct (v_str l "region-start") as [ra|]; [|discriminate]. destruct (v_str l "region-size") as [rb|]; [|discriminate].
      apply ret_inv in EA as (-> & ->). split; [exact H|]. split; [reflexivity|]. intros _. exists ra, rb. auto.
    - apply ret_inv in EA as (_ & ->). exists []. split; [exact H|]. split; [reflexivity|discriminate]. }
  clear H. destruct HR as (U1 & H & HU1 & HREG).
  apply mbind_inv in E as (sl & kfb & EB & E).
  assert (HR : exists U', at_ g (U' ++ U1 ++ ["resize"; "extra-mount-opts"; "ignore-checksum"; "force-install-same"; "install-same"; "readonly"; "allow-mounted"; "parent"; "bootname"; "extra-mkfs-opts"; "type"; "device"; "description"]) l kfb /\
     U' = (if String.eqb ty "boot-emmc" then ["size-limit"] else []) /\
     (String.eqb ty "boot-emmc" = true -> sl = match v_str l "size-limit" with Some v => binary_suffixed v | None => 0%N end)).
  { destruct (String.eqb ty "boot-emmc").
    - destruct isreg; subst U1; rd EB H; apply ret_inv in EB as (-> & ->); (exists ["size-limit"]; split; [exact H|]; split; [reflexivity|]; intros _; destruct (v_str l "size-limit"); reflexivity).
    - apply ret_inv in EB as (_ & ->). exists []. split; [exact H|]. split; [reflexivity|discriminate]. }
  clear H. destruct HR as (U2 & H & HU2 & HSL).
  apply mbind_inv in E as (efi & kfc & EC & E).
  assert (HR : exists U', at_ g (U' ++ U2 ++ U1 ++ ["resize"; "extra-mount-opts"; "ignore-checksum"; "force-install-same"; "install-same"; "readonly"; "allow-mounted"; "parent"; "bootname"; "extra-mkfs-opts"; "type"; "device"; "description"]) l kfc /\
     U' = if opt_is bl "efi" then ["efi-cmdline"; "efi-loader"] else []).
  { destruct (opt_is bl "efi").
    - destruct isreg; subst U1; (destruct (String.eqb ty "boot-emmc"); subst U2; rd EC H; rd EC H; apply ret_inv in EC as (_ & ->); (exists ["efi-cmdline"; "efi-loader"]; split; [exact H|reflexivity])).
    - apply ret_inv in EC as (_ & ->). exists []. split; [exact H|reflexivity]. }
  clear H. destruct HR as (U3 & H & HU3).
  apply mbind_inv in E as (u & kfd & ED & E). apply (finish_inv _ _ _ _ _ _ H) in ED as (KEYS & ->). apply ret_inv in E as (-> & ->).
  split; [|unfold kf_group, kf_remove_group; apply assoc_remove_eq].
  unfold slot_sem. cbn [c_name c_class c_device c_type c_bootname c_parent_name c_allow_mounted c_readonly c_install_same c_resize].
  fold ty.
  repeat (split; [first [reflexivity|assumption]|]).
  split; [|split; [exact HREG|split]].
  - intros b HB. rewrite HB in *. assumption.
  - intros TY. apply HSL. now apply String.eqb_eq.
  - intros k Hk. apply KEYS in Hk. unfold slot_keys.
    assert (MB : isreg =
       (String.eqb ty "boot-mbr-switch" || String.eqb ty "boot-gpt-switch" || String.eqb ty "boot-raw-fallback")).
    { unfold isreg. cbn [mem existsb]. rewrite orb_false_r, orb_assoc. reflexivity. }
    rewrite <- MB. rewrite !in_app_iff in Hk. rewrite !in_app_iff.
    destruct Hk as [Hk|[Hk|[Hk|Hk]]].
    + right; right; right. subst U3. destruct (opt_is bl "efi"); cbn in Hk |- *; tauto.
    + right; right; left. subst U2. destruct (String.eqb ty "boot-emmc"); exact Hk.
    + right; left. subst U1. destruct isreg; cbn in Hk |- *; tauto.
    + left. cbn in Hk |- *. tauto.
Qed.

(** ** loggers, repositories *)
Lemma parse_logger_keys dd g l kf x kf' : kf_group kf g = Some l -> parse_logger dd g kf = Ok (x, kf') ->
  (forall k, In k (map fst l) -> In k log_keys) /\ (1 <= g_maxfiles x <= 1000)%Z.
Proof.
  intros HG E. assert (H : at_ g [] l kf) by (unfold at_; now rewrite drop_nil). unfold parse_logger in E.
  rd E H. apply mbind_inv in E as (fn & kfa & EA & E).
  assert (kfa = kf0). { destruct (has_prefix "/" v); [apply ret_inv in EA; tauto|]. destruct dd; [apply ret_inv in EA; tauto|discriminate]. } subst kfa.
  rd E H. rd E H. rd E H. rd E H. rd E H. rd E H. rd E H. rd E H.
  apply mbind_inv in E as (u & kfd & ED & E). apply (finish_inv _ _ _ _ _ _ H) in ED as (KEYS & ->). apply ret_inv in E as (-> & ->).
  split.
  - intros k Hk. apply KEYS in Hk. unfold log_keys. cbn in *. tauto.
  - cbn [g_maxfiles]. match goal with HH : (_ && _)%bool = true |- _ => apply andb_prop in HH as [HH1 HH2] end.
    apply Z.leb_le in HH1, HH2. lia.
Qed.

Lemma parse_repo_inv g p name l kf x kf' : kf_group kf g = Some l -> parse_repo g [p; name] kf = Ok (x, kf') ->
  p_name x = name /\ v_str l "path" = Some (p_path x) /\ v_str l "type" = Some (p_type x) /\ mem repo_types (p_type x) = true /\
  (forall k, In k (map fst l) -> In k artifacts_keys).
Proof.
  intros HG E. assert (H : at_ g [] l kf) by (unfold at_; now rewrite drop_nil). cbn [parse_repo] in E.
  rd E H. rd E H. rd E H. rd E H. rd E H. destruct (v_str l "parent-class"); [discriminate|].
  apply mbind_inv in E as (u & kfd & ED & E). apply (finish_inv _ _ _ _ _ _ H) in ED as (KEYS & ->). apply ret_inv in E as (-> & ->).
  cbn [p_name p_path p_type]. repeat (split; [first [reflexivity|assumption]|]).
  intros k Hk. apply KEYS in Hk. unfold artifacts_keys. cbn in *. tauto.
Qed.

(** ** [system] *)
Lemma at_touch {A} (m : M A) g U l kf a kf' T : touches T m -> ~ T g -> at_ g U l kf -> m kf = Ok (a, kf') -> at_ g U l kf'.
Proof. intros HT N H E. destruct (HT _ _ _ E) as (P & _). unfold at_ in *. now rewrite P. Qed.

Lemma bootloader_keys_inv bl U l kf a kf' : at_ "system" U l kf ->
  (forall k, In k ["barebox-statename"; "barebox-dtbpath"; "grubenv"; "efi-use-bootnext"] -> mem U k = false) ->
  parse_bootloader_keys bl kf = Ok (a, kf') ->
  exists U', at_ "system" (U' ++ U) l kf' /\ (forall k, In k U' -> In k (system_keys bl)) /\
    (forall k, In k U' -> In k ["barebox-statename"; "barebox-dtbpath"; "grubenv"; "efi-use-bootnext"]) /\
    (opt_is bl "custom" = false -> kf_group kf' "handlers" = kf_group kf "handlers") /\
    (opt_is bl "custom" = true -> kf_group kf' "handlers" =
       match kf_group kf "handlers" with Some lh => Some (drop ["bootloader-custom-backend"] lh) | None => None end).
Proof.
  intros H HU E. unfold parse_bootloader_keys in E.
  assert (SK : forall k, In k (if opt_is bl "barebox" then ["barebox-statename"; "barebox-dtbpath"]
      else if opt_is bl "grub" then ["grubenv"] else if opt_is bl "efi" then ["efi-use-bootnext"] else []) -> In k (system_keys bl)).
  { intros k Hk. unfold system_keys. apply in_or_app. now right. }
  assert (ONLY : forall m : M (option string * option string * option string * bool * option string), m kf = Ok (a, kf') -> touches (eq "system") m -> kf_group kf' "handlers" = kf_group kf "handlers").
  { intros m EM HT. destruct (HT _ _ _ EM) as (P & _). apply P. discriminate. }
  destruct (opt_is bl "barebox") eqn:B1.
  { apply opt_is_spec in B1. subst bl. assert (HH : kf_group kf' "handlers" = kf_group kf "handlers") by (apply (ONLY _ E); touch).
    apply mbind_inv in E as (x & kf1 & E1 & E). apply (get_null_inv _ _ _ _ _ _ _ H (HU "barebox-statename" ltac:(cbn; tauto))) in E1 as (-> & H1).
    apply mbind_inv in E as (y & kf2 & E2 & E).
    assert (M2 : mem ("barebox-statename" :: U) "barebox-dtbpath" = false). { change (mem U "barebox-dtbpath" = false). apply HU. cbn. tauto. }
    apply (get_null_inv _ _ _ _ _ _ _ H1 M2) in E2 as (-> & H2). apply ret_inv in E as (_ & ->).
    exists ["barebox-dtbpath"; "barebox-statename"]. split; [exact H2|]. split; [intros k Hk; apply SK; cbn in *; tauto|]. split; [cbn; tauto|].
    split; [intros _; exact HH|discriminate]. }
  destruct (opt_is bl "grub") eqn:B2.
  { apply opt_is_spec in B2. subst bl. assert (HH : kf_group kf' "handlers" = kf_group kf "handlers") by (apply (ONLY _ E); touch).
    apply mbind_inv in E as (x & kf1 & E1 & E). apply (get_null_inv _ _ _ _ _ _ _ H (HU "grubenv" ltac:(cbn; tauto))) in E1 as (-> & H1).
    apply ret_inv in E as (_ & ->). exists ["grubenv"]. split; [exact H1|]. split; [intros k Hk; apply SK; cbn in *; tauto|]. split; [cbn; tauto|].
    split; [intros _; exact HH|discriminate]. }
  destruct (opt_is bl "efi") eqn:B3.
  { apply opt_is_spec in B3. subst bl. assert (HH : kf_group kf' "handlers" = kf_group kf "handlers") by (apply (ONLY _ E); touch).
    apply mbind_inv in E as (x & kf1 & E1 & E). apply (get_bool_inv _ _ _ _ _ _ _ _ H (HU "efi-use-bootnext" ltac:(cbn; tauto))) in E1 as (-> & H1).
    apply ret_inv in E as (_ & ->). exists ["efi-use-bootnext"]. split; [exact H1|]. split; [intros k Hk; apply SK; cbn in *; tauto|]. split; [cbn; tauto|].
    split; [intros _; exact HH|discriminate]. }
  destruct (opt_is bl "custom") eqn:B4.
  { apply mbind_inv in E as (x & kf1 & E1 & E).
    assert (H1 : at_ "system" U l kf1). { eapply (at_touch _ _ _ _ _ _ _ (eq "handlers")); [| |exact H|exact E1]; [touch|discriminate]. }
    assert (kf' = kf1) as -> by (destruct x; [apply ret_inv in E; tauto|discriminate]).
    exists []. split; [exact H1|]. split; [intros k []|]. split; [intros k []|]. split; [discriminate|]. intros _.
    apply mbind_inv in E1 as (r & kf2 & E1 & E2). apply ret_inv in E2 as (_ & ->). unfold consume in E1. apply Ok_inj in E1. injection E1 as _ <-.
    unfold kf_remove_key. destruct (kf_group kf "handlers") as [lh|] eqn:G; [|exact G]. unfold kf_group. rewrite assoc_set_eq.
    rewrite <- (drop_nil lh) at 1. now rewrite drop_cons. }
  assert (HH : kf_group kf' "handlers" = kf_group kf "handlers") by (apply (ONLY _ E); touch). apply ret_inv in E as (_ & ->). exists []. split; [exact H|]. split; [intros k []|]. split; [intros k []|].
  split; [intros _; reflexivity|discriminate].
Qed.

Lemma mem_cons_false x U k : String.eqb k x = false -> mem U k = false -> mem (x :: U) k = false.
Proof. unfold mem. cbn [existsb]. intros -> ->. reflexivity. Qed.
Ltac memc := repeat (apply mem_cons_false; [reflexivity|]); assumption.
(** at most one source of the variant *)
Definition variant_sem (l : group) (v : variant) : Prop :=
  match v_bool l "variant-dtb" false, v_str l "variant-file", v_str l "variant-name" with
  | true, None, None => v = VarDtb
  | false, Some f, None => v = VarFile f
  | false, None, Some n => v = VarName n
  | false, None, None => v = VarNone
  | _, _, _ => False
  end.
Lemma variant_inv U l kf a kf' : at_ "system" U l kf ->
  mem U "variant-dtb" = false -> mem U "prevent-late-fallback" = false -> mem U "variant-file" = false -> mem U "variant-name" = false ->
  parse_variant kf = Ok (a, kf') ->
  at_ "system" ("variant-name" :: "variant-file" :: "prevent-late-fallback" :: "variant-dtb" :: U) l kf' /\
  variant_sem l (fst a) /\ snd a = v_bool l "prevent-late-fallback" false.
Proof.
  intros H U1 U2 U3 U4 E. unfold parse_variant in E.
  apply (mem_cons_false "variant-dtb") in U2; [|reflexivity]. apply (mem_cons_false "variant-dtb") in U3; [|reflexivity]. apply (mem_cons_false "variant-dtb") in U4; [|reflexivity].
  apply (mem_cons_false "prevent-late-fallback") in U3; [|reflexivity]. apply (mem_cons_false "prevent-late-fallback") in U4; [|reflexivity].
  apply (mem_cons_false "variant-file") in U4; [|reflexivity].
  apply mbind_inv in E as (a1 & kf1 & E1 & E). apply (get_bool_inv _ _ _ _ _ _ _ _ H U1) in E1 as (A1 & H1).
  apply mbind_inv in E as (a2 & kf2 & E2 & E). apply (get_bool_inv _ _ _ _ _ _ _ _ H1 U2) in E2 as (A2 & H2).
  apply mbind_inv in E as (a3 & kf3 & E3 & E). apply (get_opt_inv _ _ _ _ _ _ _ H2 U3) in E3 as (A3 & _ & H3).
  apply mbind_inv in E as (a4 & kf4 & E4 & E).
  assert (kf4 = kf3) as ->. { destruct a3; [destruct (if a1 then VarDtb else VarNone); try discriminate|]; apply ret_inv in E4; tauto. }
  apply mbind_inv in E as (a5 & kf5 & E5 & E). apply (get_opt_inv _ _ _ _ _ _ _ H3 U4) in E5 as (A5 & _ & H5).
  apply mbind_inv in E as (a6 & kf6 & E6 & E).
  assert (kf6 = kf5) as ->. { destruct a5; [destruct a4; try discriminate|]; apply ret_inv in E6; tauto. }
  apply ret_inv in E as (-> & ->). cbn [fst snd]. split; [exact H5|]. split; [|exact A2].
  unfold variant_sem. rewrite <- A1, <- A3, <- A5.
  destruct a1, a3 as [f|]; cbn in E4; try discriminate; apply ret_inv in E4 as (-> & _);
    destruct a5 as [n|]; cbn in E6; try discriminate; apply ret_inv in E6 as (-> & _); reflexivity.
Qed.

Lemma status_location_inv U l kf a kf' : at_ "system" U l kf -> mem U "data-directory" = false -> mem U "statusfile" = false ->
  parse_status_location kf = Ok (a, kf') ->
  at_ "system" ("statusfile" :: "data-directory" :: U) l kf' /\ fst a = v_str l "data-directory" /\
  snd a = match v_str l "statusfile" with
          | Some s => s
          | None => match v_str l "data-directory" with Some d => (d ++ "/central.raucs")%string | None => "per-slot" end
          end /\ (snd a = "per-slot" -> fst a = None).
Proof.
  intros H U1 U2 E. unfold parse_status_location in E.
  apply (mem_cons_false "data-directory") in U2; [|reflexivity].
  apply mbind_inv in E as (a1 & kf1 & E1 & E). apply (get_opt_inv _ _ _ _ _ _ _ H U1) in E1 as (-> & _ & H1).
  apply mbind_inv in E as (a2 & kf2 & E2 & E). apply (get_opt_inv _ _ _ _ _ _ _ H1 U2) in E2 as (-> & _ & H2).
  cbv zeta in E. destruct (v_str l "data-directory") as [d|] eqn:D.
  - destruct (String.eqb_spec (match v_str l "statusfile" with Some s => s | None => (d ++ "/central.raucs")%string end) "per-slot") as [C|C]; [discriminate|].
    apply ret_inv in E as (-> & ->). cbn [fst snd]. split; [exact H2|]. split; [reflexivity|]. split; [reflexivity|]. intros K. contradiction.
  - apply ret_inv in E as (-> & ->). cbn [fst snd]. auto.
Qed.

Definition system_sem (l : group) (y : syscfg) : Prop :=
  y_compatible y = v_str l "compatible" /\ y_bootloader y = v_str l "bootloader" /\
  y_min_bundle_version y = v_str l "min-bundle-version" /\
  (forall v, y_min_bundle_version y = Some v -> semver_le_bool "0" v = true) /\
  y_data_directory y = v_str l "data-directory" /\
  y_statusfile y = (match v_str l "statusfile" with
          | Some s => s
          | None => match v_str l "data-directory" with Some d => (d ++ "/central.raucs")%string | None => "per-slot" end
          end) /\
  (y_statusfile y = "per-slot" -> y_data_directory y = None) /\
  (0 <= y_boot_attempts y)%Z /\ (0 <= y_boot_attempts_primary y)%Z /\ y_max_signature y <> 0%N /\
  match v_str l "bundle-formats" with Some s => parse_bundle_formats 7 s = Ok (y_formats y) | None => y_formats y = 7%N end /\
  y_activate_installed y = v_bool l "activate-installed" true /\
  variant_sem l (y_variant y) /\ y_prevent_late_fallback y = v_bool l "prevent-late-fallback" false /\
  (forall k, In k (map fst l) -> In k (system_keys (v_str l "bootloader"))).

Lemma mem_app_false U' U k : mem U' k = false -> mem U k = false -> mem (U' ++ U) k = false.
Proof. unfold mem. intros A B. now rewrite existsb_app, A, B. Qed.
Lemma mem_special U' k : (forall x, In x U' -> In x ["barebox-statename"; "barebox-dtbpath"; "grubenv"; "efi-use-bootnext"]) ->
  mem ["barebox-statename"; "barebox-dtbpath"; "grubenv"; "efi-use-bootnext"] k = false -> mem U' k = false.
Proof.
  intros H K. destruct (mem U' k) eqn:E; [|reflexivity]. apply mem_in in E. apply H in E. apply mem_in in E. congruence.
Qed.


Ltac memU HS := repeat (apply mem_cons_false; [reflexivity|]); first [reflexivity | apply mem_app_false; [apply (mem_special _ _ HS); reflexivity|reflexivity]].

(** as [rd], also tracking that another group is left alone: [F] *)
Lemma frame_step {A} (m : M A) g h X kf a kf' : m kf = Ok (a, kf') -> kf_group kf h = X -> touches (eq g) m -> g <> h -> kf_group kf' h = X.
Proof. intros E HX HT N. destruct (HT _ _ _ E) as (P & _). rewrite P by assumption. exact HX. Qed.
Ltac rdf E H F HS :=
  let a := fresh "v" in let kf1 := fresh "kf" in let E1 := fresh "E" in let Q := fresh "Q" in let MM := fresh "MM" in
  apply mbind_inv in E as (a & kf1 & E1 & E);
  pose proof (frame_step _ "system" _ _ _ _ _ E1 F ltac:(touch) ltac:(discriminate)) as F';
  clear F; rename F' into F;
  match type of H with at_ _ ?U _ _ =>
  match type of E1 with
  | guard _ _ = _ => apply guard_inv in E1 as (Q & ->)
  | get_null _ ?k _ = _ => assert (MM : mem U k = false) by memU HS; apply (get_null_inv _ _ _ _ k _ _ H MM) in E1 as (-> & H')
  | get_opt _ ?k _ = _ => assert (MM : mem U k = false) by memU HS; apply (get_opt_inv _ _ _ _ k _ _ H MM) in E1 as (-> & Q & H')
  | get_bool _ ?k _ _ = _ => assert (MM : mem U k = false) by memU HS; apply (get_bool_inv _ _ _ _ k _ _ _ H MM) in E1 as (-> & H')
  | get_int _ ?k _ = _ => assert (MM : mem U k = false) by memU HS; apply (get_int_inv _ _ _ _ k _ _ H MM) in E1 as (-> & Q & H')
  | get_u64 _ ?k _ _ = _ => assert (MM : mem U k = false) by memU HS; apply (get_u64_inv _ _ _ _ k _ _ _ H MM) in E1 as (Q & H')
  | _ => idtac
  end end;
  try clear MM; try (clear H; rename H' into H); cbv beta zeta in E.

Lemma parse_system_inv l kf y kf' : kf_group kf "system" = Some l -> parse_system kf = Ok (y, kf') ->
  system_sem l y /\ kf_group kf' "system" = None /\
  (opt_is (v_str l "bootloader") "custom" = false -> kf_group kf' "handlers" = kf_group kf "handlers") /\
  (opt_is (v_str l "bootloader") "custom" = true -> kf_group kf' "handlers" =
       match kf_group kf "handlers" with Some lh => Some (drop ["bootloader-custom-backend"] lh) | None => None end).
Proof.
  intros HG E. assert (H : at_ "system" [] l kf) by (unfold at_; now rewrite drop_nil). unfold parse_system in E.
  assert (F : kf_group kf "handlers" = kf_group kf "handlers") by reflexivity.
  assert (HS : forall x : string, In x [] -> In x ["barebox-statename"; "barebox-dtbpath"; "grubenv"; "efi-use-bootnext"]) by (intros x []).
  rdf E H F HS. rdf E H F HS. rdf E H F HS. rdf E H F HS. clear HS.
  apply mbind_inv in E as (blk & kfb & EB & E).
  destruct (bootloader_keys_inv _ _ _ _ _ _ H ltac:(intros k Hk; cbn in Hk; destruct Hk as [<-|[<-|[<-|[<-|[]]]]]; reflexivity) EB) as (U' & HB & HK & HS & F1 & F2).
  clear H. rename HB into H. destruct blk as [[[[bbs bbd] grub] bn] cust]. rewrite F in F1, F2. clear F.
  assert (F : kf_group kfb "handlers" = kf_group kfb "handlers") by reflexivity.
  do 9 rdf E H F HS.
  do 1 rdf E H F HS.
  apply mbind_inv in E as (vp & kfv & EV & E).
  pose proof (frame_step _ "system" _ _ _ _ _ EV F ltac:(unfold parse_variant; touch) ltac:(discriminate)) as F'. clear F; rename F' into F.
  apply (variant_inv _ _ _ _ _ H) in EV; [|memU HS|memU HS|memU HS|memU HS]. clear H. destruct EV as (H & V1 & V2). destruct vp as [var plf]. cbn [fst snd] in V1, V2.
  apply mbind_inv in E as (ds & kfd & ED & E).
  pose proof (frame_step _ "system" _ _ _ _ _ ED F ltac:(unfold parse_status_location; touch) ltac:(discriminate)) as F'. clear F; rename F' into F.
  apply (status_location_inv _ _ _ _ _ H) in ED; [|memU HS|memU HS]. clear H. destruct ED as (H & D1 & D2 & D3). destruct ds as [dd sf]. cbn [fst snd] in D1, D2, D3.
  rdf E H F HS.
  apply mbind_inv in E as (mask & kfm & EM & E).
  match type of F with kf_group ?kk _ = _ => assert (MK : kfm = kk /\ match v_str l "bundle-formats" with Some s => parse_bundle_formats 7 s = Ok mask | None => mask = 7%N end) end.
  { destruct (v_str l "bundle-formats") as [bf|]; [destruct (parse_bundle_formats 7 bf) as [m0| |]; try discriminate|]; apply ret_inv in EM as (-> & ->); auto. }
  destruct MK as (-> & MK).
  rdf E H F HS.
  apply mbind_inv in E as (u & kfe & EE & E).
  pose proof (frame_step _ "system" _ _ _ _ _ EE F ltac:(touch) ltac:(discriminate)) as F'. clear F; rename F' into F.
  apply (finish_inv _ _ _ _ _ _ H) in EE as (KEYS & ->). apply ret_inv in E as (-> & ->).
  split; [|split; [unfold kf_group, kf_remove_group; apply assoc_remove_eq|split; intros B; rewrite F; auto]].
  unfold system_sem. cbn [y_compatible y_bootloader y_min_bundle_version y_data_directory y_statusfile y_boot_attempts y_boot_attempts_primary y_max_signature y_formats y_activate_installed y_variant y_prevent_late_fallback].
  split; [reflexivity|]. split; [reflexivity|]. split; [reflexivity|].
  split. { intros vv HV. rewrite HV in *. assumption. }
  split; [exact D1|]. split; [exact D2|]. split; [exact D3|].
  split; [apply Z.leb_le; assumption|]. split; [apply Z.leb_le; assumption|].
  split. { match goal with HH : negb (?v =? 0)%N = true |- ?v <> _ => apply Bool.negb_true_iff, N.eqb_neq in HH; exact HH end. }
  split; [exact MK|]. split; [reflexivity|]. split; [exact V1|]. split; [exact V2|].
  intros k Hk. apply KEYS in Hk. unfold system_keys.
  repeat (cbn [In app] in Hk; destruct Hk as [<-|Hk]; [cbn; tauto|]).
  apply in_app_or in Hk as [Hk|Hk]; [apply HK; exact Hk|]. cbn in Hk |- *. tauto.
Qed.
