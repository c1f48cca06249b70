(** Property theorems from the text of system.conf to the slots (C80). Vocabulary: SystemConfSpec.v. *)
From Coq Require Import Permutation.
From Verif Require Import Base BaseLemmas Slot Image Handlers KeyFile Hex Semver Manifest Bundle BundleSpec Install InstallSpec Uboot UbootSpec InstallRun InstallRunSpec
  BootInst InstallRunExamples Gates GatesSpec Signature SignatureSpec SignatureExamples EndToEndSpec BundleProofs.
From Verif Require Import Config ConfigSpec Context ContextSpec SystemConf SystemConfSpec SystemConfProofs.
Open Scope list_scope.

(** C80: an accepted bundle was signed as the text of [keyring] demands, and has a format it allows *)
Theorem C80_signed : forall o1 o2 o3 present files cl x p kf L P load inner verity key version pr (remote : bool) f excl access no_time b,
  configure o1 o2 o3 present files cl = Ok x -> x_source x = Some p -> files p = CKeyFile kf -> NoDup (kf_groups kf) ->
  honest L P -> bp_verify pr = true ->
  check L (keyconf_of x no_time) load inner verity (bconf_of x key version) pr remote f excl access = Ok b ->
  exists cm data, text_signed L P cl kf no_time cm data /\
    match b_manifest b with
    | None => remote = false /\ cs_content cm = None /\ data = firstn (b_size b) f /\ text_allows_format cl kf F_PLAIN
    | Some m => cs_content cm = Some data /\ load data = Ok m /\ mf_format m <> F_PLAIN /\ text_allows_format cl kf (mf_format m)
    end.
Proof. exact c80_signed_ok. Qed.
Print Assumptions C80_signed.
(** C80: and a bundle signed like that is accepted *)
Theorem C80_accepts : forall o1 o2 o3 present files cl x p kf L P load inner verity key version pr (remote : bool) f excl access no_time
    size raw cm s c rest m mf,
  configure o1 o2 o3 present files cl = Ok x -> x_source x = Some p -> files p = CKeyFile kf -> NoDup (kf_groups kf) ->
  complete L P -> ssl_load L (keyring_file cl kf) (keyring_dir cl kf) = true ->
  (forall q, text cl kf "keyring" "check-purpose" = Some q -> q = "codesign" \/ q = "codesign-rauc" \/ ssl_purpose L q = true) ->
  keyring_file cl kf <> None \/ keyring_dir cl kf <> None ->
  bp_verify pr = true ->
  (if remote then open_remote (y_max_signature (f_system (x_config x))) f else open_local (y_max_signature (f_system (x_config x))) f) = Ok (size, raw) ->
  ssl_parse L raw = Some cm -> cs_type cm = TSigned -> cs_content cm = Some m -> cs_signers cm = [s] -> si_cert s = Some c ->
  ssl_sig L s m = true -> text_trusts P cl kf no_time (signing_time s) c rest -> text_allows_name cl kf c ->
  (forall y, In y rest -> In y (cs_certs cm) \/ p_keyring P (keyring_file cl kf) (keyring_dir cl kf) y = true) ->
  load m = Ok mf -> mf_format mf <> F_PLAIN -> text_allows_format cl kf (mf_format mf) ->
  exists b, check L (keyconf_of x no_time) load inner verity (bconf_of x key version) pr remote f excl access = Ok b /\
    b_manifest b = Some mf /\ b_sig_verified b = true.
Proof. exact c80_accepts_ok. Qed.
Print Assumptions C80_accepts.
(** C80: a configuration with other values is refused; there is no silent fallback to a weaker check *)
Theorem C80_values : forall o1 o2 o3 present files cl x kf, configure o1 o2 o3 present files cl = Ok x -> config_text files x kf ->
  (forall key v, In key ["check-crl"; "allow-partial-chain"; "use-bundle-signing-time"] -> text cl kf "keyring" key = Some v -> on (Some v) \/ off (Some v)) /\
  text cl kf "keyring" "check-purpose" <> Some "".
Proof. exact c80_values_ok. Qed.
Print Assumptions C80_values.
(** C80: slots have different names and boot names, parents are top-level slots, and each is as its section says *)
Theorem C80_slots : forall o1 o2 o3 present files cl x p kf var, configure o1 o2 o3 present files cl = Ok x ->
  x_source x = Some p -> files p = CKeyFile kf -> NoDup (kf_groups kf) ->
  (forall l, Permutation (o1 l) l) -> (forall l, Permutation (o2 l) l) -> (forall l, Permutation (o3 l) l) ->
  let slots := cf_slots (sysconf_of x var) in
  unique_names slots /\ wf_parents slots /\ unique_bootnames slots /\ (forall s, In s slots -> slot_text cl kf s).
Proof. exact c80_slots_ok. Qed.
Print Assumptions C80_slots.
(** C80: what is written, and where to *)
Theorem C80_write : forall B o1 o2 o3 present files cl x p kf key version var no_time V P (t : attempt B) realdev bootslot d c,
  configure o1 o2 o3 present files cl = Ok x -> x_source x = Some p -> files p = CKeyFile kf -> NoDup (kf_groups kf) ->
  (forall l, Permutation (o1 l) l) -> (forall l, Permutation (o2 l) l) -> (forall l, Permutation (o3 l) l) ->
  honest (vf_ssl V) P -> vf_keys V = keyconf_of x no_time -> at_crypto t = vf_crypto V -> steady t ->
  at_conf t = gconf_of x key version var ->
  determine_slot_states realdev (Some bootslot) (cf_slots (sysconf_of x var)) = Ok (in_states (at_inp t)) ->
  In (GRun (EWrite d c)) (snd (attempt_run t)) ->
  exists m s i, text_vouched V P cl kf no_time t m /\ text_fits cl kf t m /\ text_allows_format cl kf (mf_format m) /\
    slot_text cl kf s /\ text cl kf ("slot." ++ sl_name s) "device" = Some d /\ ~ on (text cl kf ("slot." ++ sl_name s) "readonly") /\
    (forall booted, In booted (cf_slots (sysconf_of x var)) -> in_states (at_inp t) (sl_name booted) = ST_BOOTED -> sl_parent booted = None ->
       sl_name s <> sl_name booted /\ sl_parent s <> Some (sl_name booted)) /\
    image_for var (mf_images m) (sl_class s) = Some i /\ (c = Torn \/ c = Whole (im_digest i)).
Proof. exact c80_write_ok. Qed.
Print Assumptions C80_write.
(** C80: over any history, a complete image on a slot's device was there before, or follows from the text *)
Theorem C80_install : forall B o1 o2 o3 present files cl x p kf key version var no_time (bk : backend B) V P (A : attempt B -> Prop) w0 w dev d,
  configure o1 o2 o3 present files cl = Ok x -> x_source x = Some p -> files p = CKeyFile kf -> NoDup (kf_groups kf) ->
  (forall l, Permutation (o1 l) l) -> (forall l, Permutation (o2 l) l) -> (forall l, Permutation (o3 l) l) ->
  honest (vf_ssl V) P -> vf_keys V = keyconf_of x no_time ->
  (forall t, A t -> at_crypto t = vf_crypto V /\ at_backend t = bk /\ at_conf t = gconf_of x key version var /\ steady t) ->
  history A w0 w -> w_dev w dev = Whole d ->
  w_dev w0 dev = Whole d \/
  exists t m s i, A t /\ text_vouched V P cl kf no_time t m /\ text_fits cl kf t m /\ text_allows_format cl kf (mf_format m) /\
    slot_text cl kf s /\ text cl kf ("slot." ++ sl_name s) "device" = Some dev /\ ~ on (text cl kf ("slot." ++ sl_name s) "readonly") /\
    image_for var (mf_images m) (sl_class s) = Some i /\ im_digest i = d.
Proof. exact c80_install_ok. Qed.
Print Assumptions C80_install.
(** C80: the status file stays true, and the system boots from intact slots *)
Theorem C80_boot_safe : forall B o1 o2 o3 present files cl x p kf key version var (bk : backend B) V (A : attempt B -> Prop) (good : B -> Prop) cand bt w0 w,
  configure o1 o2 o3 present files cl = Ok x -> x_source x = Some p -> files p = CKeyFile kf -> NoDup (kf_groups kf) ->
  (forall l, Permutation (o1 l) l) -> (forall l, Permutation (o2 l) l) -> (forall l, Permutation (o3 l) l) ->
  central_status cl kf -> own_devices cl kf ->
  boot_laws (cf_slots (sysconf_of x var)) good cand bt bk ->
  (forall t, A t -> at_crypto t = vf_crypto V /\ at_backend t = bk /\ at_conf t = gconf_of x key version var /\ steady t /\
     forall m, delivers t m -> proper cand (sysconf_of x var) (with_bundle (at_inp t) m) (at_world t)) ->
  status_true (cf_slots (sysconf_of x var)) w0 -> boot_safe (cf_slots (sysconf_of x var)) good cand bt w0 ->
  history A w0 w ->
  status_true (cf_slots (sysconf_of x var)) w /\
  (exists n, bt (w_boot w) n) /\ forall n, bt (w_boot w) n -> intact (cf_slots (sysconf_of x var)) w n.
Proof. exact c80_boot_ok. Qed.
Print Assumptions C80_boot_safe.

(** *** Example: system.conf of an A/B system *)
Definition sc_file : keyfile :=
  [("system", [("compatible", "sys"); ("bootloader", "uboot"); ("statusfile", "/data/rauc.status"); ("bundle-formats", "-crypt"); ("min-bundle-version", "2.0")]);
   ("keyring", [("path", "/etc/rauc/ca.pem"); ("check-purpose", "codesign"); ("allowed-signer-cns", "Example Release Key;Other")]);
   ("slot.rootfs.0", [("device", "/dev/a"); ("type", "ext4"); ("bootname", "A")]);
   ("slot.appfs.0", [("device", "/dev/c"); ("type", "ext4"); ("parent", "rootfs.0")]);
   ("slot.rootfs.1", [("device", "/dev/b"); ("type", "ext4"); ("bootname", "B")]);
   ("slot.appfs.1", [("device", "/dev/d"); ("type", "ext4"); ("parent", "rootfs.1")])].
Definition sc_cl : cmdline := mkCmdline ModeRequired None [] None None None.
Definition sc_files (p : string) : cfile := if String.eqb p "/etc/rauc/system.conf" then CKeyFile sc_file else CUnreadable.
Definition sc_x : context :=
  match configure (fun l => l) (@rev cslot) (fun l => l) (String.eqb "/etc/rauc/system.conf") sc_files sc_cl with
  | Ok x => x
  | _ => mkContext (mkConfig (mkSys None None None None None None false None 0 0 0 0 "" false VarNone false None "" 0 false) no_keyring None (None, None, None) [] [] (fun _ => None) []) None "" None None false
  end.
Example ex_sc_configured : configure (fun l => l) (@rev cslot) (fun l => l) (String.eqb "/etc/rauc/system.conf") sc_files sc_cl = Ok sc_x /\
  x_source sc_x = Some "/etc/rauc/system.conf" /\ sc_files "/etc/rauc/system.conf" = CKeyFile sc_file /\ NoDup (kf_groups sc_file).
Proof. split; [vm_compute; reflexivity|]. split; [vm_compute; reflexivity|]. split; [reflexivity|]. repeat constructor; cbn; intuition discriminate. Qed.
Example ex_sc_conf : keyconf_of sc_x false = mkKeyconf (Some "/etc/rauc/ca.pem") None false false (Some "codesign-rauc") (Some ["Example Release Key"; "Other"]) false false /\
  map (fun s => (sl_name s, sl_device s, sl_bootname s, sl_parent s)) (cf_slots (sysconf_of sc_x None)) =
    [("rootfs.0", "/dev/a", Some "A", None); ("appfs.0", "/dev/c", None, Some "rootfs.0");
     ("rootfs.1", "/dev/b", Some "B", None); ("appfs.1", "/dev/d", None, Some "rootfs.1")] /\
  cf_per_slot (sysconf_of sc_x None) = false /\
  map (bc_allowed (bconf_of sc_x false "1.14")) [F_PLAIN; F_VERITY; F_CRYPT] = [true; true; false].
Proof. repeat split; vm_compute; reflexivity. Qed.
Example ex_sc_text : central_status sc_cl sc_file /\ text_allows_format sc_cl sc_file F_VERITY /\ ~ text_allows_format sc_cl sc_file F_CRYPT /\
  text_allows_name sc_cl sc_file ex_leaf.
Proof.
  split; [discriminate|]. split; [|split].
  - intros v E. vm_compute in E. injection E as <-. exists [FDel 2]. split; [constructor; [unfold is_ftoken, ftokens; cbn; auto 12|constructor]|]. right. split; [|reflexivity]. constructor; [intros X; exact X|constructor].
  - intros X. destruct (X "-crypt" eq_refl) as (toks & FT & K). change (words "-crypt") with ["-crypt"] in FT. inversion FT as [|a b c d I1 F1]; subst. inversion F1; subst.
    assert (b = FDel 2) as ->. { unfold is_ftoken, ftokens in I1. cbn [In] in I1. repeat destruct I1 as [I1|I1]; try contradiction; congruence. }
    destruct K as [(_ & [K|[]])|(_ & K)]; discriminate.
  - intros v E. vm_compute in E. injection E as <-. exists "Example Release Key". split; [reflexivity|]. split; [left; reflexivity|reflexivity].
Qed.
(** devices are not shared *)
Example ex_sc_devices : own_devices sc_cl sc_file.
Proof.
  assert (X : forall n dev, text sc_cl sc_file ("slot." ++ n) "device" = Some dev ->
    In (n, dev) [("rootfs.0", "/dev/a"); ("rootfs.1", "/dev/b"); ("appfs.0", "/dev/c"); ("appfs.1", "/dev/d")]).
  { intros n dev. unfold text, sc_cl. cbn [cl_overrides last_override rev find]. unfold kf_get, kf_group, sc_file.
    change (last_override [] ("slot." ++ n) "device") with (@None string). cbv iota. cbn [assoc].
    destruct (String.eqb_spec "system" ("slot." ++ n)) as [E|_]; [discriminate|]. destruct (String.eqb_spec "keyring" ("slot." ++ n)) as [E|_]; [discriminate|].
    repeat match goal with |- context [String.eqb ?a ("slot." ++ n)] => destruct (String.eqb_spec a ("slot." ++ n)) as [E|_];
      [cbn [String.append] in E; injection E as <-; vm_compute; intros E; injection E as <-; auto 8|] end. discriminate. }
  intros a b dev HA HB. apply X in HA. apply X in HB. cbn [In] in HA, HB.
  repeat destruct HA as [HA|HA]; try contradiction; injection HA as <- <-; repeat destruct HB as [HB|HB]; try contradiction; congruence.
Qed.

Definition sc_img (c : string) : image :=
  mkImage c None None (Some ex_hex) 7 (Some "x.ext4") (Some "ext4") true false false false [] [] [].
Definition sc_mf (f : bformat) : manifest :=
  mkManifest (Some "sys") (Some "2.1") None None None f true
    (match f with F_PLAIN => None | _ => Some ex_hex end) (match f with F_PLAIN => None | _ => Some ex_hex end)
    (match f with F_PLAIN => 0 | _ => 4096 end) None None None None false [sc_img "rootfs"; sc_img "appfs"] [].
Definition sc_V : verifier :=
  mkVerifier ex_ssl (keyconf_of sc_x false)
    (fun b => match b with ["M"%char] => Ok (sc_mf F_VERITY) | _ => Err end)
    (fun b => Ok (sc_mf F_PLAIN)) (fun _ _ _ _ => true).
Definition sc_attempt (sig : ascii) (w : world env) : attempt env :=
  let f := append_signature (repeat "P"%char (64 * 128)) [sig] in
  mkAttempt env (vf_crypto sc_V) (fun _ => "hash") exr_bk (gconf_of sc_x false "1.14" None) (mkIargs false false None)
    (mkGout true true true true true true) false f f true true (exr_inp []) w.
Definition sc_writes (l : list (gevent env)) : list (string * content) :=
  flat_map (fun e => match e with GRun (EWrite d c) => [(d, c)] | _ => [] end) l.
Example ex_sc_run :
  sc_writes (snd (attempt_run (sc_attempt "I" exr_w0))) =
    [("/dev/b", Torn); ("/dev/b", Whole (Some ex_hex)); ("/dev/d", Torn); ("/dev/d", Whole (Some ex_hex))] /\
  fst (attempt_run (sc_attempt "I" exr_w0)) = Ok tt /\
  attempt_run (sc_attempt "S" exr_w0) = (Err, []) /\ attempt_run (sc_attempt "A" exr_w0) = (Err, []) /\ attempt_run (sc_attempt "x" exr_w0) = (Err, []).
Proof. repeat split; vm_compute; reflexivity. Qed.
Example ex_sc_hyps : honest (vf_ssl sc_V) ex_pki /\
  determine_slot_states (fun d => d) (Some "A") (cf_slots (sysconf_of sc_x None)) = Ok (in_states (at_inp (sc_attempt "I" exr_w0))).
Proof. split; [exact ex_honest|vm_compute; reflexivity]. Qed.
(** 'check-crl=yes' is no boolean: refused *)
Example ex_sc_yes : configure (fun l => l) (@rev cslot) (fun l => l) (String.eqb "/etc/rauc/system.conf") sc_files
  (mkCmdline ModeRequired None [mkOverride "keyring" "check-crl" "yes"] None None None) = Err.
Proof. vm_compute. reflexivity. Qed.
