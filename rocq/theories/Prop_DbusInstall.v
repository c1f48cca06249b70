(** C69: rauc install over D-Bus: options, bundle name, exit code; InspectBundle. *)
From Verif Require Import Base BaseLemmas KeyFile Image Manifest DbusInstall DbusInstallSpec DbusInstallProofs.

Theorem C69_options_strict : forall l,
  (forall a, service_args l = Ok a ->
     (forall k v, value_of l k = Some v -> honoured a k v) /\
     (value_of l "ignore-compatible" = None -> a_ignore_compatible a = false) /\
     (value_of l "ignore-version-limit" = None -> a_ignore_version_limit a = false) /\
     (value_of l "transaction-id" = None -> a_transaction a = None) /\
     (value_of l "require-manifest-hash" = None -> a_manifest_hash a = None) /\
     (value_of l "tls-cert" = None -> a_tls_cert a = None) /\ (value_of l "tls-key" = None -> a_tls_key a = None) /\ (value_of l "tls-ca" = None -> a_tls_ca a = None) /\
     (value_of l "tls-no-verify" = None -> a_tls_no_verify a = false) /\ (value_of l "http-headers" = None -> a_http_headers a = None)) /\
  (service_args l = Err <-> exists k v, value_of l k = Some v /\ ~ supported k v) /\ service_args l <> Abort.
Proof. exact c69_strict_ok. Qed.
Print Assumptions C69_options_strict.
Theorem C69_options_roundtrip : forall a, service_args (client_dict a) = Ok a.
Proof. exact c69_roundtrip_ok. Qed.
Print Assumptions C69_options_roundtrip.
Theorem C69_options_inspect : forall l,
  (forall a, inspect_args l = Ok a -> forall k v, value_of l k = Some v -> access_key k /\ honoured a k v) /\
  (inspect_args l = Err <-> exists k v, value_of l k = Some v /\ ~ (access_key k /\ supported k v)) /\ inspect_args l <> Abort.
Proof. exact c69_inspect_args_ok. Qed.
Print Assumptions C69_options_inspect.
Theorem C69_options_used : forall l w i, exec l world0 = Some w ->
  (forall a, w_used w i = Some a -> exists d, In (SCall i d) l /\ service_args d = Ok a) /\
  (forall a, (forall d, In (SCall i d) l -> d = client_dict a) -> w_used w i = None \/ w_used w i = Some a) /\
  (w_results w i <> None -> w_used w i <> None).
Proof. exact c69_used_ok. Qed.
Print Assumptions C69_options_used.
Theorem C69_exit : forall l w i c, exec l world0 = Some w -> w_clients w i = CDone c ->
  ((w_used w i = None /\ dispatched l world0 i = [] /\ c = 2%Z) \/
   (w_used w i <> None /\ exists before e after, dispatched l world0 i = before ++ e :: after /\ tells e c /\ Forall (fun x => x = EvChanged) after)) /\
  (c = 0%Z -> exists o, In (EvCompleted o 0) (dispatched l world0 i) /\ w_results w o = Some 0%Z) /\
  (w_used w i <> None -> (forall e, In e (dispatched l world0 i) -> e = EvChanged \/ exists r, e = EvCompleted i r) -> w_results w i = Some c) /\
  (forall o r, In (EvCompleted o r) (dispatched l world0 i) -> w_results w o = Some r).
Proof. exact c69_exit_ok. Qed.
Print Assumptions C69_exit.
Theorem C69_wakes : forall l w i st q, exec l world0 = Some w -> w_clients w i = CWaiting st q ->
  (w_results w i = None <-> w_busy w = Some i) /\
  (forall r, w_results w i = Some r -> exists c w', do_step w (SDispatch i (List.length q)) = Some w' /\ w_clients w' i = CDone c).
Proof. exact c69_wakes_ok. Qed.
Print Assumptions C69_wakes.
Theorem C69_early_refuted : exists l w, exec l world0 = Some w /\ w_clients w 1 = CDone 0 /\ w_busy w = Some 1 /\ w_used w 1 = Some iargs0 /\ w_results w 1 = None.
Proof. exact c69_early_refuted. Qed.
Print Assumptions C69_early_refuted.
Theorem C69_late_refuted : exists l w, exec l world0 = Some w /\ w_clients w 0 = CDone 0 /\ w_results w 0 = Some 1%Z.
Proof. exact c69_late_refuted. Qed.
Print Assumptions C69_late_refuted.
Theorem C69_path : forall cwd from_uri exists_ path,
  (forall p, resolve_bundle cwd from_uri exists_ path = Ok p ->
     (parse_scheme path = None /\ exists_ p = true /\ (is_absolute cwd = true -> is_absolute p = true) /\ (is_absolute path = true -> p = path)) \/
     (parse_scheme path = Some "file"%string /\ exists_ p = true /\ from_uri path = Some (p, None)) \/
     (exists sch, parse_scheme path = Some sch /\ sch <> "file"%string /\ p = path)) /\
  (is_absolute path = true -> exists_ path = true -> resolve_bundle cwd from_uri exists_ path = Ok path) /\
  (is_absolute path = false -> no_char ":" path = true -> exists_ (if String.eqb cwd "/" then String "/" path else cwd ++ "/" ++ path)%string = true ->
     resolve_bundle cwd from_uri exists_ path = Ok (if String.eqb cwd "/" then String "/" path else cwd ++ "/" ++ path)%string) /\
  resolve_bundle cwd from_uri exists_ path <> Abort.
Proof. exact c69_path_ok. Qed.
Print Assumptions C69_path.
Theorem C69_path_refuted : exists cwd from_uri exists_ path,
  is_absolute cwd = true /\ exists_ (cwd ++ "/" ++ path)%string = true /\ resolve_bundle cwd from_uri exists_ path = Ok path /\ is_absolute path = false.
Proof. exact c69_path_refuted. Qed.
Print Assumptions C69_path_refuted.
Theorem C69_inspect : forall m hash v, v = GD (manifest_dict m hash) ->
  at_path ["manifest-hash"%string] v = str_opt hash /\
  at_path ["update"; "compatible"]%string v = str_opt (mf_compatible m) /\ at_path ["update"; "version"]%string v = str_opt (mf_version m) /\
  at_path ["update"; "description"]%string v = str_opt (mf_description m) /\ at_path ["update"; "build"]%string v = str_opt (mf_build m) /\
  at_path ["bundle"; "format"]%string v = Some (GS (match mf_format m with F_PLAIN => "plain" | F_VERITY => "verity" | F_CRYPT => "crypt" end)) /\
  at_path ["bundle"; "verity-hash"]%string v = str_opt (mf_verity_hash m) /\ at_path ["bundle"; "verity-salt"]%string v = str_opt (mf_verity_salt m) /\
  at_path ["bundle"; "verity-size"]%string v = (if N.eqb (mf_verity_size m) 0 then None else Some (GT (mf_verity_size m))) /\
  at_path ["hooks"; "filename"]%string v = str_opt (mf_hook m) /\
  (mf_hook m <> None -> at_path ["hooks"; "hooks"]%string v = Some (GL (if mf_install_check m then ["install-check"%string] else []))) /\
  at_path ["handler"; "filename"]%string v = str_opt (mf_handler m) /\ (mf_handler m <> None -> at_path ["handler"; "args"]%string v = str_opt (mf_handler_args m)) /\
  (exists l, at_path ["images"%string] v = Some (GA l) /\ List.length l = List.length (mf_images m) /\
     forall n i, nth_error (mf_images m) n = Some i -> exists d, nth_error l n = Some d /\ image_says i d) /\
  (forall g k, at_path ["meta"%string; g; k] v = match assoc g (mf_meta m) with Some d => str_opt (assoc k d) | None => None end) /\
  (meta_ok m -> keys_unique v).
Proof. exact c69_inspect_ok. Qed.
Print Assumptions C69_inspect.
Theorem C69_inspect_secret : forall m m' hash, same_but_key m m' -> manifest_dict m' hash = manifest_dict m hash.
Proof. exact c69_secret_ok. Qed.
Print Assumptions C69_inspect_secret.

Definition ex_args : iargs := mkIargs true false (Some "tx"%string) None (Some "/c.pem"%string) None None true (Some ["X: y"; "Z: t"]%string).
Example C69_options_example : service_args (client_dict ex_args) = Ok ex_args /\ inspect_args [("tls-ca", VS "/ca"); ("tls-ca", VS "/cb")]%string = Ok (mkIargs false false None None None None (Some "/cb"%string) false None).
Proof. split; reflexivity. Qed.
(** an unknown option, and a known one with a value of another type *)
Example C69_options_example_refused : service_args [("ignore-compatible", VB true); ("ignore-signature", VB true)]%string = Err /\ service_args [("tls-no-verify", VS "false")]%string = Err /\
  inspect_args [("ignore-compatible", VB false)]%string = Err.
Proof. repeat split; reflexivity. Qed.
(** two clients: the second is refused while the first one is installing *)
Definition run69 : list step :=
  [SConnect 0; SConnect 1; SCall 0 (client_dict ex_args); SChanged; SCall 1 (client_dict iargs0); SDispatch 0 1; SFinish 1; SChanged; SDispatch 0 2].
Example C69_exit_example : exists w, exec run69 world0 = Some w /\ w_clients w 0 = CDone 1 /\ w_clients w 1 = CDone 2 /\ w_used w 0 = Some ex_args /\ w_used w 1 = None /\
  dispatched run69 world0 0 = [EvChanged; EvCompleted 0 1; EvChanged] /\ w_results w 0 = Some 1%Z /\
  (forall e, In e (dispatched run69 world0 0) -> e = EvChanged \/ exists r, e = EvCompleted 0 r).
Proof.
  eexists. split; [reflexivity|]. repeat split; try reflexivity. intros e H. cbn in H. destruct H as [<-|[<-|[<-|[]]]]; [left; reflexivity|right; exists 1%Z; reflexivity|left; reflexivity].
Qed.
Example C69_wakes_example : exists w, exec (firstn 8 run69) world0 = Some w /\ w_clients w 0 = CWaiting 2 [EvCompleted 0 1; EvChanged] /\ w_results w 0 = Some 1%Z.
Proof. eexists. split; [reflexivity|]. split; reflexivity. Qed.
Example C69_path_example :
  resolve_bundle "/home/u" (fun _ => None) (fun p => String.eqb p "/home/u/b.raucb") "b.raucb" = Ok "/home/u/b.raucb"%string /\
  resolve_bundle "/home/u" (fun _ => Some ("/b c"%string, None)) (fun p => String.eqb p "/b c") "file:///b%20c" = Ok "/b c"%string /\
  resolve_bundle "/home/u" (fun _ => None) (fun _ => false) "https://h/b" = Ok "https://h/b"%string /\
  resolve_bundle "/home/u" (fun _ => Some ("/b"%string, Some "host"%string)) (fun _ => true) "file://host/b" = Err.
Proof. repeat split; reflexivity. Qed.
Definition ex_img69 : image := mkImage "rootfs" None (Some "v1"%string) (Some "aa"%string) 4096 (Some "r.img"%string) (Some "raw"%string) false true false true ["block-hash-index"%string] [] [].
Definition ex_mf69 : manifest := mkManifest (Some "c"%string) None None (Some "b1"%string) None F_CRYPT true (Some "hh"%string) (Some "ss"%string) 4096 (Some "secret"%string)
  None None (Some "hook.sh"%string) true [ex_img69] [("vendor"%string, [("serial", "7")]%string)].
Example C69_inspect_example : meta_ok ex_mf69 /\ at_path ["meta"; "vendor"; "serial"]%string (GD (manifest_dict ex_mf69 (Some "ff"%string))) = Some (GS "7") /\
  at_path ["hooks"; "hooks"]%string (GD (manifest_dict ex_mf69 None)) = Some (GL ["install-check"%string]) /\ same_but_key ex_mf69 (mkManifest (Some "c"%string) None None (Some "b1"%string) None F_CRYPT true (Some "hh"%string) (Some "ss"%string) 4096 None
  None None (Some "hook.sh"%string) true [ex_img69] [("vendor"%string, [("serial", "7")]%string)]).
Proof.
  split; [split; repeat constructor; cbn; intuition|]. split; [reflexivity|]. split; [reflexivity|]. exists None. reflexivity.
Qed.
