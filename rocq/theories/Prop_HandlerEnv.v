(** C65 Handlers and the install-check hook are told the truth, and their answer counts *)
From Verif Require Import Base BaseLemmas Slot Image KeyFile EnvKey Semver Manifest Handlers Install InstallSpec InstallProofs
  ShellOut ShellOutSpec HandlerEnv HandlerEnvSpec HandlerEnvTop HandlerEnvMore.
From Verif Require Import EnvKeyProofs.
From Verif Require Context.

(** For every configuration and every bundle there is an environment (nothing aborts). *)
Theorem C65_always : forall realdev bootslot per_slot st info h c base source m transaction slots,
  unique_names slots -> wf_parents slots -> determine_slot_states realdev (Some bootslot) slots = Ok st -> Context.system_info h = Ok (hx_sysinfo c) ->
  exists env, real_environment realdev bootslot per_slot st info h c base source m transaction slots env.
Proof. exact c65_always_ok. Qed.
Print Assumptions C65_always.
Theorem C65_real : forall realdev bootslot per_slot st info h c base source m transaction slots env,
  real_environment realdev bootslot per_slot st info h c base source m transaction slots env ->
  handler_environment c base source m transaction slots (determine_target_group per_slot st info slots) env.
Proof. exact c65_real_made. Qed.
Print Assumptions C65_real.
(** The system, the bundle and the transaction, whatever rauc's own environment and the system-info handler say. *)
Theorem C65_system : forall c base source m transaction slots tg env, handler_environment c base source m transaction slots tg env ->
  getenv "RAUC_SYSTEM_CONFIG" env = Some (hx_config c) /\
  getenv "RAUC_SYSTEM_COMPATIBLE" env = Some (or_empty (hx_compatible c)) /\
  getenv "RAUC_SYSTEM_VARIANT" env = Some (or_empty (hx_variant c)) /\
  getenv "RAUC_SYSTEM_VERSION" env = Some (or_empty (hx_version c)) /\
  getenv "RAUC_CURRENT_BOOTNAME" env = Some (hx_bootslot c) /\
  getenv "RAUC_MOUNT_PREFIX" env = Some (hx_mount_prefix c) /\
  getenv "RAUC_BUNDLE_MOUNT_POINT" env = Some source /\
  getenv "RAUC_UPDATE_SOURCE" env = Some source /\
  getenv "RAUC_TRANSACTION_ID" env = Some transaction.
Proof. exact c65_system_ok. Qed.
Print Assumptions C65_system.
(** The numbers of all slots and of the target slots *)
Theorem C65_lists : forall c base source m transaction slots tg env, handler_environment c base source m transaction slots tg env ->
  getenv "RAUC_SLOTS" env = Some (words (map num (seq 1 (List.length slots)))) /\
  exists ns, getenv "RAUC_TARGET_SLOTS" env = Some (words (map num ns)) /\
    (forall k, In k ns <-> exists i s, nth_error slots i = Some s /\ k = S i /\ tg (sl_class s) = Some s).
Proof. exact c65_lists_ok. Qed.
Print Assumptions C65_lists.
(** Every slot, under its number *)
Theorem C65_slots : forall c base source m transaction slots tg env i s, handler_environment c base source m transaction slots tg env ->
  nth_error slots i = Some s ->
  getenv ("RAUC_SLOT_NAME_" ++ num (S i)) env = Some (sl_name s) /\
  getenv ("RAUC_SLOT_CLASS_" ++ num (S i)) env = Some (sl_class s) /\
  getenv ("RAUC_SLOT_TYPE_" ++ num (S i)) env = Some (sl_type s) /\
  getenv ("RAUC_SLOT_DEVICE_" ++ num (S i)) env = Some (sl_device s) /\
  getenv ("RAUC_SLOT_BOOTNAME_" ++ num (S i)) env = Some (or_empty (sl_bootname s)) /\
  getenv ("RAUC_SLOT_PARENT_" ++ num (S i)) env = Some (or_empty (sl_parent s)).
Proof. exact c65_slots_ok. Qed.
Print Assumptions C65_slots.
(** The targets are never the booted slot nor in its group, and there is one for each class. *)
Theorem C65_targets : forall realdev bootslot per_slot st info h c base source m transaction slots env,
  real_environment realdev bootslot per_slot st info h c base source m transaction slots env ->
  exists ns, getenv "RAUC_TARGET_SLOTS" env = Some (words (map num ns)) /\
    (forall k, In k ns -> exists i s, k = S i /\ nth_error slots i = Some s /\ getenv ("RAUC_SLOT_NAME_" ++ num k) env = Some (sl_name s) /\
       forall booted, In booted slots -> st (sl_name booted) = Install.ST_BOOTED -> sl_parent booted = None ->
         sl_name s <> sl_name booted /\ sl_parent s <> Some (sl_name booted)) /\
    (forall i j s t, In (S i) ns -> In (S j) ns -> nth_error slots i = Some s -> nth_error slots j = Some t -> sl_class s = sl_class t -> i = j).
Proof. exact c65_targets_ok. Qed.
Print Assumptions C65_targets.
(** The image of a target slot, if the bundle does not have several variants of it *)
Theorem C65_image : forall c base source m transaction slots tg env i s img, handler_environment c base source m transaction slots tg env ->
  nth_error slots i = Some s -> tg (sl_class s) = Some s ->
  (forall i, In i (mf_images m) -> im_class i = sl_class s -> im_variant i = None) ->
  image_for (hx_variant c) (mf_images m) (sl_class s) = Some img ->
  getenv ("RAUC_IMAGE_NAME_" ++ num (S i)) env = Some (or_empty (im_filename img)) /\
  getenv ("RAUC_IMAGE_DIGEST_" ++ num (S i)) env = Some (or_empty (im_digest img)) /\
  getenv ("RAUC_IMAGE_CLASS_" ++ num (S i)) env = Some (sl_class s).
Proof. exact c65_image_right_ok. Qed.
Print Assumptions C65_image.
Theorem C65_no_image : forall c base source m transaction slots tg env i s b, handler_environment c base source m transaction slots tg env ->
  nth_error slots i = Some s -> tg (sl_class s) <> Some s \/ first_image (mf_images m) (sl_class s) = None ->
  In b ["RAUC_IMAGE_NAME_"; "RAUC_IMAGE_DIGEST_"; "RAUC_IMAGE_CLASS_"] ->
  getenv (b ++ num (S i)) base = None -> assoc (b ++ num (S i)) (hx_sysinfo c) = None ->
  getenv (b ++ num (S i)) env = None.
Proof. exact c65_no_image_ok. Qed.
Print Assumptions C65_no_image.
Theorem C65_variant_refuted : exists c base m slots st env i s img,
  real_environment (fun d => d) "A" false st ex_info Context.NoHandler c base "/b" m "1" slots env /\
  nth_error slots i = Some s /\ determine_target_group false st ex_info slots (sl_class s) = Some s /\
  image_for (hx_variant c) (mf_images m) (sl_class s) = Some img /\
  im_filename img = Some "y.ext4" /\ getenv ("RAUC_IMAGE_NAME_" ++ num (S i)) env = Some "x.ext4".
Proof. exact c65_variant_refuted. Qed.
Print Assumptions C65_variant_refuted.
Theorem C65_bootname_refuted : exists c base m slots st env booted,
  real_environment (fun d => d) (hx_bootslot c) false st ex_info Context.NoHandler c base "/b" m "1" slots env /\
  In booted slots /\ st (sl_name booted) = Install.ST_BOOTED /\ sl_bootname booted = Some "A" /\
  getenv "RAUC_CURRENT_BOOTNAME" env = Some "/dev/a".
Proof. exact c65_bootname_refuted. Qed.
Print Assumptions C65_bootname_refuted.
(** Variables which are not rauc's *)
Theorem C65_inherited : forall realdev bootslot per_slot st info h c base source m transaction slots env q,
  real_environment realdev bootslot per_slot st info h c base source m transaction slots env ->
  a_name q -> has_prefix "RAUC_" q = false -> getenv q env = getenv q base.
Proof. exact c65_inherited_ok. Qed.
Print Assumptions C65_inherited.
(** Meta data *)
Theorem C65_meta : forall realdev bootslot per_slot st info h c base source m transaction slots env g kvs k v,
  real_environment realdev bootslot per_slot st info h c base source m transaction slots env ->
  In (g, kvs) (mf_meta m) -> In (k, v) kvs -> all_chars key_char g = true -> all_chars key_char k = true ->
  let n := ("RAUC_META_" ++ smap env_conv g ++ "_" ++ smap env_conv k)%string in
  NoDup (map fst (meta_vars (mf_meta m))) -> getenv n base = None -> assoc n (hx_sysinfo c) = None ->
  getenv n env = Some v.
Proof. exact c65_meta_ok. Qed.
Print Assumptions C65_meta.
Theorem C65_meta_shadowed_refuted : exists c st base m env,
  real_environment (fun d => d) "A" false st ex_info Context.NoHandler c base "/b" m "1" ex_tree env /\
  mf_meta m = [("update", [("poll", "3600")])] /\ getenv "RAUC_META_UPDATE_POLL" env = Some "60".
Proof. exact c65_meta_shadowed_refuted. Qed.
Print Assumptions C65_meta_shadowed_refuted.

(** Running handlers: one program, with these arguments, and only exit code 0 is a success; every line is shown. *)
Theorem C65_launch : forall exec name argv env ok calls out, launch_and_wait_handler exec name argv env = (ok, calls, out) ->
  calls = [mkCall (name :: argv) env] /\
  (ok = true <-> exists lines, exec (mkCall (name :: argv) env) = Some (lines, Exited 0)) /\
  (forall lines e, exec (mkCall (name :: argv) env) = Some (lines, e) -> Forall2 shown_as lines out) /\
  (exec (mkCall (name :: argv) env) = None -> out = []).
Proof. exact c65_launch_ok. Qed.
Print Assumptions C65_launch.
Theorem C65_custom : forall exec split dir handler args extra env a x,
  words_of split args a -> words_of split extra x ->
  launch_and_wait_custom_handler exec split dir handler args extra env = launch_and_wait_handler exec (dir ++ "/" ++ handler) (a ++ x) env.
Proof. exact c65_custom_ok. Qed.
Print Assumptions C65_custom.
Theorem C65_custom_bad : forall exec split dir handler args extra env s,
  args = Some s \/ extra = Some s -> split s = None ->
  launch_and_wait_custom_handler exec split dir handler args extra env = (false, [], []).
Proof. exact c65_custom_bad_ok. Qed.
Print Assumptions C65_custom_bad.
Theorem C65_line_plain : forall line, has_prefix "<< " line = false -> parse_handler_output line = Some (Printed ("# " ++ line)).
Proof. exact c65_plain_ok. Qed.
Print Assumptions C65_line_plain.
Theorem C65_line_error : forall t,
  parse_handler_output ("<< error " ++ t)%string = Some (Message ("Error: " ++ t)) /\
  parse_handler_output ("<< debug " ++ t)%string = Some (Message ("Debug: " ++ t)).
Proof. exact c65_error_ok. Qed.
Print Assumptions C65_line_error.
Theorem C65_line_status : forall w t, no_char " " w = true -> nothing_or_more t ->
  parse_handler_output ("<< handler " ++ w ++ t)%string = Some (Message ("Handler status: " ++ w)) /\
  parse_handler_output ("<< bootloader " ++ w ++ t)%string = Some (Message ("Bootloader status: " ++ w)).
Proof. exact c65_status_ok. Qed.
Print Assumptions C65_line_status.
Theorem C65_line_image : forall n w t, no_char " " n = true -> no_char " " w = true -> nothing_or_more t ->
  parse_handler_output ("<< image " ++ n ++ " " ++ w ++ t)%string = Some (Message ("Image '" ++ n ++ "' status: " ++ w)).
Proof. exact c65_image_status_ok. Qed.
Print Assumptions C65_line_image.
Theorem C65_line_unknown : forall w t, no_char " " w = true -> ~ In w ["handler"; "image"; "bootloader"; "error"; "debug"] -> nothing_or_more t ->
  parse_handler_output ("<< " ++ w ++ t)%string = Some (Message ("Unknown handler output: << " ++ w ++ t)).
Proof. exact c65_unknown_ok. Qed.
Print Assumptions C65_line_unknown.
Theorem C65_words_dropped_refuted :
  parse_handler_output "<< handler writing rootfs failed" = Some (Message "Handler status: writing") /\
  parse_handler_output "<< image rootfs.ext4 write failed" = Some (Message "Image 'rootfs.ext4' status: write").
Proof. exact c65_words_dropped_refuted. Qed.
Print Assumptions C65_words_dropped_refuted.

(** The install-check hook *)
Theorem C65_hook_env : forall exec c base m dir hook cmd r calls, run_bundle_hook exec c base m dir hook cmd = Ok (r, calls) ->
  exists env, calls = [mkCall [dir ++ "/" ++ hook; cmd]%string env] /\
    (forall k v, In (k, v) (hook_rows c m) -> getenv k env = Some v) /\
    (NoDup (map fst (meta_vars (mf_meta m))) -> forall g kvs k v, In (g, kvs) (mf_meta m) -> In (k, v) kvs ->
       all_chars key_char g = true -> all_chars key_char k = true ->
       getenv ("RAUC_META_" ++ smap env_conv g ++ "_" ++ smap env_conv k) env = Some v) /\
    (forall q, a_name q -> has_prefix "RAUC_" q = false -> getenv q env = getenv q base).
Proof. exact c65_hook_env_ok. Qed.
Print Assumptions C65_hook_env.
Theorem C65_hook_result : forall exec c base m dir hook cmd r p, run_bundle_hook exec c base m dir hook cmd = Ok (r, [p]) ->
  (r = HookOk <-> exists lines, exec p = Some (lines, Exited 0)) /\
  (forall t, r = HookRejected t <-> exists lines n, exec p = Some (lines ++ [t], Exited n) /\ (10 <= n)%nat).
Proof. exact c65_hook_result_ok. Qed.
Print Assumptions C65_hook_result.
Theorem C65_silent_reject_refuted : exists exec c base m dir hook cmd calls,
  (forall p, exec p = Some ([], Exited 10)) /\
  run_bundle_hook exec c base m dir hook cmd = Ok (HookFailed, calls).
Proof. exact c65_silent_reject_refuted. Qed.
Print Assumptions C65_silent_reject_refuted.

(** A system with two groups of slots, booted from the first one, and a bundle with two images and meta data *)
Definition x_c : hctx := mkHctx "/etc/rauc/system.conf" (Some "board") None (Some "1") "A" "/mnt/rauc/" [("RAUC_SYSTEM_SERIAL", "42")].
Definition x_m : manifest := hm [ex_img "rootfs"; ex_img "appfs"] [("update", [("poll", "3600")])].
Definition x_st : string -> slot_state :=
  match determine_slot_states (fun d => d) (Some "A") ex_tree with Ok s => s | _ => fun _ => Install.ST_INACTIVE end.
Example ex_env : exists env,
  real_environment (fun d => d) "A" false x_st ex_info (Context.Output "RAUC_SYSTEM_SERIAL=42" true) x_c ["PATH=/bin"; "RAUC_SLOTS=9"] "/b" x_m "7" ex_tree env /\
  getenv "PATH" env = Some "/bin" /\ getenv "RAUC_SLOTS" env = Some "1 2 3 4" /\ getenv "RAUC_TARGET_SLOTS" env = Some "3 4" /\
  getenv "RAUC_SLOT_NAME_3" env = Some "rootfs.1" /\ getenv "RAUC_IMAGE_NAME_4" env = Some "x.ext4" /\ getenv "RAUC_IMAGE_NAME_1" env = None /\
  getenv "RAUC_SYSTEM_SERIAL" env = Some "42" /\ getenv "RAUC_META_UPDATE_POLL" env = Some "3600".
Proof.
  eexists. split.
  - split; [unfold unique_names, ex_tree; repeat (constructor; [cbn; intuition discriminate|]); constructor |]. split; [exact ex_tree_wf |].
    split; [reflexivity |]. split; [vm_compute; reflexivity |]. vm_compute. reflexivity.
  - vm_compute. repeat split; reflexivity.
Qed.
Example ex_hook : exists p, run_bundle_hook (fun _ => Some (["checking"; "wrong board"], Exited 10)) x_c [] x_m "/b" "hook" "install-check" = Ok (HookRejected "wrong board", [p]) /\
  cl_argv p = ["/b/hook"; "install-check"] /\ getenv "RAUC_MF_COMPATIBLE" (cl_env p) = Some "board".
Proof. eexists. split; [vm_compute; reflexivity |]. split; vm_compute; reflexivity. Qed.
Example ex_launch : launch_and_wait_custom_handler (fun _ => Some (["hello"; "<< error no space left"], Exited 0)) (fun s => Some (split_on " " s)) "/b" "h.sh" (Some "-a -b") (Some "-c") [] =
  (true, [mkCall ["/b/h.sh"; "-a"; "-b"; "-c"] []], [Printed "# hello"; Message "Error: no space left"]).
Proof. reflexivity. Qed.
