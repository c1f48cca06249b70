(** Property theorems for the choice of the system configuration (C54) and the system variant (C55).
    Vocabulary: ContextSpec.v. *)
From Verif Require Import Base BaseLemmas KeyFile Image Install Config ConfigSpec ConfigSize Context ContextSpec ContextProofs.

(** C54: a configuration from a file is that of the one file which counts, with the overrides of the command line *)
Theorem C54_file : forall o1 o2 o3 present files cl x p, configure o1 o2 o3 present files cl = Ok x -> x_source x = Some p ->
  config_path present cl p /\
  exists kf, files p = CKeyFile kf /\ load_config o1 o2 o3 (apply_overrides (cl_overrides cl) kf) = Ok (x_config x).
Proof. exact c54_file_ok. Qed.
Print Assumptions C54_file.
(** C54: the built-in defaults are used only by commands which need no configuration, or, where it is optional, if the
    file cannot be read or is empty; a broken configuration is never ignored *)
Theorem C54_defaults : forall o1 o2 o3 present files cl x, configure o1 o2 o3 present files cl = Ok x -> x_source x = None ->
  cl_config cl = None /\
  (cl_mode cl = ModeNone \/
   cl_mode cl = ModeAuto /\ exists p, chosen_path present p /\ (files p = CUnreadable \/ files p = CEmptyFile)) /\
  default_config o1 o2 (cl_overrides cl) = Ok (x_config x).
Proof. exact c54_defaults_ok. Qed.
Print Assumptions C54_defaults.
Theorem C54_complete : forall o1 o2 o3 present files cl p kf c, config_path present cl p ->
  files p = CKeyFile kf -> load_config o1 o2 o3 (apply_overrides (cl_overrides cl) kf) = Ok c ->
  exists x, configure o1 o2 o3 present files cl = Ok x /\ x_source x = Some p /\ x_config x = c.
Proof. exact c54_complete_ok. Qed.
Print Assumptions C54_complete.
Theorem C54_target : forall o1 o2 o3 present files cl x, configure o1 o2 o3 present files cl = Ok x ->
  (x_target x = true <-> cl_config cl <> None \/ cl_mode cl = ModeRequired).
Proof. exact c54_target_ok. Qed.
Print Assumptions C54_target.
Theorem C54_cmdline : forall o1 o2 o3 present files cl x, configure o1 o2 o3 present files cl = Ok x ->
  (forall m, cl_mount cl = Some m -> x_mountprefix x = m) /\
  (cl_mount cl = None -> x_mountprefix x = y_mountprefix (f_system (x_config x))) /\
  (forall k, cl_keyring cl = Some k -> x_keyring x = Some k) /\
  (cl_keyring cl = None -> x_keyring x = k_path (f_keyring (x_config x))) /\
  (forall k, cl_keydir cl = Some k -> x_keydir x = Some k) /\
  (cl_keydir cl = None -> x_keydir x = k_directory (f_keyring (x_config x))).
Proof. exact c54_cmdline_ok. Qed.
Print Assumptions C54_cmdline.
Theorem C54_override : forall ovs kf g k, kf_get (apply_overrides ovs kf) g k =
  match last_override ovs g k with Some v => Some v | None => kf_get kf g k end.
Proof. exact c54_override_ok. Qed.
Print Assumptions C54_override.
Theorem C54_parse_override : forall s k v, no_char "=" s = true -> no_char ":" s = true -> no_char "=" k = true ->
  parse_override (s ++ ":" ++ k ++ "=" ++ v) = Some (mkOverride s k v).
Proof. exact c54_parse_override_ok. Qed.
Print Assumptions C54_parse_override.
Theorem C54_compatible : forall o1 o2 o3 present files cl x p kf v, configure o1 o2 o3 present files cl = Ok x ->
  x_source x = Some p -> files p = CKeyFile kf -> NoDup (kf_groups kf) ->
  last_override (cl_overrides cl) "system" "compatible" = Some v ->
  y_compatible (f_system (x_config x)) = Some v.
Proof. exact c54_compatible_ok. Qed.
Print Assumptions C54_compatible.

Definition ex_cl : cmdline := mkCmdline ModeAuto None [mkOverride "system" "compatible" "Other"; mkOverride "keyring" "path" "/tmp/k"] None (Some "/root/k.pem") None.
Definition ex_files (p : string) : cfile :=
  if String.eqb p "/run/rauc/system.conf" then CKeyFile example_file else CUnreadable.
Example ex_configure : exists x, configure (@rev cslot) (@rev cslot) (fun l => l) (String.eqb "/run/rauc/system.conf") ex_files ex_cl = Ok x /\
  x_source x = Some "/run/rauc/system.conf" /\ y_compatible (f_system (x_config x)) = Some "Other" /\
  x_keyring x = Some "/root/k.pem" /\ k_path (f_keyring (x_config x)) = Some "/tmp/k" /\ x_target x = false.
Proof.
  destruct (configure (@rev cslot) (@rev cslot) (fun l => l) (String.eqb "/run/rauc/system.conf") ex_files ex_cl) as [x| |] eqn:E; vm_compute in E; try discriminate.
  exists x. apply Ok_inj in E. subst x. repeat split.
Qed.
Example ex_configure_defaults : exists x, configure (@rev cslot) (@rev cslot) (fun l => l) (fun _ => false) (fun _ => CUnreadable) ex_cl = Ok x /\
  x_source x = None /\ f_slots (x_config x) = [].
Proof.
  destruct (configure (@rev cslot) (@rev cslot) (fun l => l) (fun _ => false) (fun _ => CUnreadable) ex_cl) as [x| |] eqn:E; vm_compute in E; try discriminate.
  exists x. apply Ok_inj in E. subst x. repeat split.
Qed.
Example ex_configure_broken : configure (@rev cslot) (@rev cslot) (fun l => l) (fun _ => true) (fun _ => CNoKeyFile) ex_cl = Err.
Proof. reflexivity. Qed.
Example ex_override : parse_override "slot.rootfs.0:device=/dev/x=y" = Some (mkOverride "slot.rootfs.0" "device" "/dev/x=y").
Proof. reflexivity. Qed.

(** C55: where the variant comes from *)
Theorem C55_source : forall v dtb file var serial version, configure_info v dtb file NoHandler = Ok (var, serial, version) ->
  match v with
  | VarNone => var = None
  | VarName n => exists t, var = Some t /\ trimmed n t
  | VarFile f =>
      match file f with
      | Some s => text_only s -> exists t, var = Some t /\ trimmed s t
      | None => var = None
      end
  | VarDtb =>
      match dtb with
      | Some s => forall first rest, text_only first -> s = (first ++ String Ascii.zero rest)%string -> exists t, var = Some t /\ trimmed first t
      | None => var = None
      end
  end /\ serial = None /\ version = None.
Proof. exact c55_source_ok. Qed.
Print Assumptions C55_source.
Theorem C55_handler : forall v dtb file text var serial version, configure_info v dtb file (Output text true) = Ok (var, serial, version) ->
  (forall s, handler_var text "RAUC_SYSTEM_VARIANT" s -> exists t, var = Some t /\ trimmed s t) /\
  (no_handler_var text "RAUC_SYSTEM_VARIANT" -> configure_info v dtb file NoHandler = Ok (var, None, None)) /\
  (forall s, handler_var text "RAUC_SYSTEM_SERIAL" s -> serial = Some s) /\
  (no_handler_var text "RAUC_SYSTEM_SERIAL" -> serial = None) /\
  (forall s, handler_var text "RAUC_SYSTEM_VERSION" s -> version = Some s) /\
  (no_handler_var text "RAUC_SYSTEM_VERSION" -> version = None).
Proof. exact c55_handler_ok. Qed.
Print Assumptions C55_handler.
Theorem C55_handler_fails : forall v dtb file h, (h = NotStarted \/ exists text, h = Output text false) ->
  configure_info v dtb file h = Err.
Proof. exact c55_handler_fails_ok. Qed.
Print Assumptions C55_handler_fails.
Theorem C55_trim : forall s t u, trimmed s t -> trimmed s u -> t <> "" -> t = u.
Proof. exact trimmed_unique. Qed.
Print Assumptions C55_trim.
(** C55: what it is used for *)
Theorem C55_images : forall v dtb file h var serial version cls imgs i, configure_info v dtb file h = Ok (var, serial, version) ->
  match_image var cls imgs None = Some i ->
  im_class i = cls /\
  ((exists t, im_variant i = Some t /\ var = Some t) \/
   im_variant i = None /\ forall j t, In j imgs -> im_class j = cls -> im_variant j = Some t -> var <> Some t).
Proof. exact c55_images_ok. Qed.
Print Assumptions C55_images.
Theorem C55_empty_refuted : exists v dtb file h, configure_info v dtb file NoHandler = Ok (Some "board1", None, None) /\
  configure_info v dtb file h = Ok (Some "", None, None).
Proof. exact c55_empty_refuted. Qed.
Print Assumptions C55_empty_refuted.
(** not so for artifacts: the images of all variants of an artifact are installed (the documentation calls variants of artifacts unsupported; such a bundle is accepted nevertheless) *)
Theorem C55_artifact_variant_refuted : exists kf m m' ps p n, Manifest.parse_manifest kf = Ok m /\ Manifest.check_external "1.14" m = Ok m' /\
  make_plans (Some "board-b") (Manifest.mf_images m') (fun _ => None) ["files"] true = Ok ps /\
  In p ps /\ pl_target p = TRepo "files" /\ im_artifact (pl_image p) = Some n /\ im_variant (pl_image p) = Some "board-a".
Proof. exact c55_artifact_variant_refuted. Qed.
Print Assumptions C55_artifact_variant_refuted.

Definition nl : string := String "010" "".
Example ex_variant :
  configure_info (VarFile "/run/variant") None (fun _ => Some (" board-7" ++ nl)%string) NoHandler = Ok (Some "board-7", None, None) /\
  configure_info VarDtb (Some ("fsl,imx8" ++ String Ascii.zero ("fsl,imx" ++ String Ascii.zero ""))%string) (fun _ => None) NoHandler = Ok (Some "fsl,imx8", None, None) /\
  configure_info (VarName "a") None (fun _ => None)
    (Output ("RAUC_SYSTEM_VARIANT=b" ++ nl ++ "warning" ++ nl ++ "RAUC_SYSTEM_SERIAL=1=2" ++ nl ++ "RAUC_SYSTEM_VARIANT= c " ++ nl)%string true) = Ok (Some "c", Some "1=2", None).
Proof. repeat split. Qed.
Example ex_handler_var : handler_var ("RAUC_SYSTEM_VARIANT=b" ++ nl ++ "RAUC_SYSTEM_VARIANT= c " ++ nl)%string "RAUC_SYSTEM_VARIANT" " c ".
Proof.
  exists ["RAUC_SYSTEM_VARIANT=b"], [""], "RAUC_SYSTEM_VARIANT= c ". split; [reflexivity|]. split; [reflexivity|].
  intros l' v' [<-|[]]. discriminate.
Qed.
