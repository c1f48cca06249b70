(** C64 The shell output of "rauc info" and "rauc status" says exactly what is known *)
From Coq Require Import Permutation.
From Verif Require Import Base BaseLemmas Slot Image Manifest KeyFile StatusFile EnvKey EnvKeyProofs ShellWords ShellOut ShellOutSpec ShellOutProofs ShellOutInfo ShellOutStatus ShellOutDbus ShellOutE2E ShellOutCases.

(** Evaluating the output of "rauc info --output-format=shell" runs nothing and sets every variable to the
    manifest's value, for every manifest; the images are numbered from 0. *)
Theorem C64_info : forall m hash, exists out, info_shell m hash = Ok out /\
  sets out "RAUC_MF_COMPATIBLE" (Some (or_empty (mf_compatible m))) /\
  sets out "RAUC_MF_VERSION" (Some (or_empty (mf_version m))) /\
  sets out "RAUC_MF_DESCRIPTION" (Some (or_empty (mf_description m))) /\
  sets out "RAUC_MF_BUILD" (Some (or_empty (mf_build m))) /\
  sets out "RAUC_MF_HASH" (Some (or_empty hash)) /\
  sets out "RAUC_MF_FORMAT" (Some (match mf_format m with F_PLAIN => "plain" | F_VERITY => "verity" | F_CRYPT => "crypt" end)) /\
  sets out "RAUC_MF_HOOKS" (Some (if mf_install_check m then "install-check" else "")) /\
  sets out "RAUC_MF_IMAGES" (Some (num (List.length (mf_images m)))) /\
  (forall k i, nth_error (mf_images m) k = Some i ->
     sets out ("RAUC_IMAGE_NAME_" ++ num k) (Some (or_empty (im_filename i))) /\
     sets out ("RAUC_IMAGE_CLASS_" ++ num k) (Some (im_class i)) /\
     sets out ("RAUC_IMAGE_ARTIFACT_" ++ num k) (Some (or_empty (im_artifact i))) /\
     sets out ("RAUC_IMAGE_VARIANT_" ++ num k) (Some (or_empty (im_variant i))) /\
     sets out ("RAUC_IMAGE_DIGEST_" ++ num k) (Some (or_empty (im_digest i))) /\
     ((0 <= im_size i)%Z -> sets out ("RAUC_IMAGE_SIZE_" ++ num k) (Some (print_num 10 (Z.to_N (im_size i))))) /\
     sets out ("RAUC_IMAGE_HOOKS_" ++ num k)
       (Some (flags [(im_pre i, "pre-install"); (im_install i, "install"); (im_post i, "post-install")])) /\
     sets out ("RAUC_IMAGE_ADAPTIVE_" ++ num k) (list_var (im_adaptive i)) /\
     sets out ("RAUC_IMAGE_CONVERT_" ++ num k) (list_var (im_convert i)) /\
     sets out ("RAUC_IMAGE_CONVERTED_" ++ num k) (list_var (im_converted i))) /\
  (forall k, List.length (mf_images m) <= k -> Forall (fun p => sets out (p ++ num k) None)
     ["RAUC_IMAGE_NAME_"; "RAUC_IMAGE_CLASS_"; "RAUC_IMAGE_ARTIFACT_"; "RAUC_IMAGE_VARIANT_"; "RAUC_IMAGE_DIGEST_"; "RAUC_IMAGE_SIZE_";
      "RAUC_IMAGE_HOOKS_"; "RAUC_IMAGE_ADAPTIVE_"; "RAUC_IMAGE_CONVERT_"; "RAUC_IMAGE_CONVERTED_"]).
Proof. exact c64_info_ok. Qed.
Print Assumptions C64_info.
(** The only variables it sets are RAUC_ ones, and only RAUC_META_ ones have names chosen by the bundle. *)
Theorem C64_info_names : forall m hash out l n v, info_shell m hash = Ok out -> sh_eval out = Some l -> In (n, v) l ->
  rauc_name n = true /\
  (has_prefix "RAUC_META_" n = true -> exists g kvs k, In (g, kvs) (mf_meta m) /\ In (k, v) kvs /\
     n = ("RAUC_META_" ++ smap env_conv g ++ "_" ++ smap env_conv k)%string) /\
  (has_prefix "RAUC_META_" n = false -> has_prefix "RAUC_MF_" n = true \/ has_prefix "RAUC_IMAGE_" n = true).
Proof. exact c64_info_names_ok. Qed.
Print Assumptions C64_info_names.
(** Meta data, unless two keys have the same variable. *)
Theorem C64_info_meta : forall m hash g kvs k v,
  In (g, kvs) (mf_meta m) -> In (k, v) kvs -> all_chars key_char g = true -> all_chars key_char k = true ->
  (forall g' kvs' k' v', In (g', kvs') (mf_meta m) -> In (k', v') kvs' ->
     (smap env_conv g' ++ "_" ++ smap env_conv k')%string = (smap env_conv g ++ "_" ++ smap env_conv k)%string -> v' = v) ->
  exists out, info_shell m hash = Ok out /\ sets out ("RAUC_META_" ++ smap env_conv g ++ "_" ++ smap env_conv k) (Some v).
Proof. exact c64_info_meta_ok. Qed.
Print Assumptions C64_info_meta.
Theorem C64_meta_refuted : ~ (forall m hash g kvs k v, In (g, kvs) (mf_meta m) -> In (k, v) kvs -> all_chars key_char g = true -> all_chars key_char k = true ->
  NoDup (map fst (mf_meta m)) -> exists out, info_shell m hash = Ok out /\ sets out ("RAUC_META_" ++ smap env_conv g ++ "_" ++ smap env_conv k) (Some v)).
Proof. exact c64_meta_refuted. Qed.
Print Assumptions C64_meta_refuted.

(** The same for "rauc status --output-format=shell": slots are numbered from 1, then repositories,
    artifacts and their instances. *)
Theorem C64_status : forall (T : Type) (i : iso T) det (c : cstatus T), (forall s, In s (c_slots c) -> v_state s <> ST_UNKNOWN) ->
  exists out, status_shell i det c = Ok out /\
  shown out "" [("RAUC_SYSTEM_COMPATIBLE", Some (or_null (c_compatible c)));
                ("RAUC_SYSTEM_VARIANT", Some (or_null (c_variant c)));
                ("RAUC_SYSTEM_VERSION", Some (or_null (c_version c)));
                ("RAUC_SYSTEM_BOOTED_BOOTNAME", Some (or_null (c_bootslot c)));
                ("RAUC_BOOT_PRIMARY", Some (or_null (c_primary c)));
                ("RAUC_SYSTEM_SLOTS", Some (words (map v_name (c_slots c))));
                ("RAUC_SLOTS", Some (counted (List.length (c_slots c))));
                ("RAUC_REPOS", Some (counted (List.length (c_repos c))))] /\
  (forall k s, nth_error (c_slots c) k = Some s -> shown out (num (S k)) (slot_vars s) /\
     shown out (num (S k)) (combine detail_names
       (match (if det then v_status s else None) with Some r => map Some (detail_values i r) | None => repeat None (List.length detail_names) end))) /\
  (forall k, k = 0 \/ List.length (c_slots c) < k ->
     Forall (fun p => sets out (p ++ num k) None)
       (["RAUC_SLOT_STATE_"; "RAUC_SLOT_CLASS_"; "RAUC_SLOT_DEVICE_"; "RAUC_SLOT_TYPE_"; "RAUC_SLOT_BOOTNAME_"; "RAUC_SLOT_PARENT_";
         "RAUC_SLOT_MOUNTPOINT_"; "RAUC_SLOT_BOOT_STATUS_"] ++ detail_names)) /\
  (forall k x, nth_error (c_repos c) k = Some x -> repo_shown out (num (S k)) x).
Proof. exact c64_status_ok. Qed.
Print Assumptions C64_status.
Theorem C64_status_names : forall (T : Type) (i : iso T) det (c : cstatus T) out l n v,
  status_shell i det c = Ok out -> sh_eval out = Some l -> In (n, v) l -> rauc_name n = true.
Proof. exact c64_status_names_ok. Qed.
Print Assumptions C64_status_names.
Theorem C64_status_stops : forall (T : Type) (i : iso T) det (c : cstatus T) s,
  In s (c_slots c) -> v_state s = ST_UNKNOWN -> status_shell i det c = Abort.
Proof. exact c64_status_stops_ok. Qed.
Print Assumptions C64_status_stops.

(** From the slots of the service over D-Bus to the shell variables. *)
Theorem C64_end_to_end : forall (T : Type) (i : iso T) det compatible variant version bootslot primary (slots : list (vslot T * rstat T)) repos order,
  service_ok i slots -> (forall l, Permutation l (order l)) ->
  exists c out, via_dbus i det compatible variant version bootslot primary slots repos order = Ok c /\ status_shell i det c = Ok out /\
  shown out "" [("RAUC_SYSTEM_COMPATIBLE", Some (or_empty compatible)); ("RAUC_SYSTEM_VARIANT", Some (or_empty variant));
                ("RAUC_SYSTEM_VERSION", Some (or_empty version)); ("RAUC_SYSTEM_BOOTED_BOOTNAME", Some (or_empty bootslot));
                ("RAUC_SLOTS", Some (counted (List.length slots))); ("RAUC_REPOS", Some (counted (List.length repos)))] /\
  (forall p, primary = Some p -> In p (map (fun sr => v_name (fst sr)) slots) -> sets out "RAUC_BOOT_PRIMARY" (Some p)) /\
  exists names number, sets out "RAUC_SYSTEM_SLOTS" (Some names) /\
    (forall s r, In (s, r) slots -> 1 <= number (v_name s) <= List.length slots /\
       shown out (num (number (v_name s))) (slot_vars (as_seen det (s, r))) /\
       (det = true -> shown out (num (number (v_name s))) (combine detail_names (map Some (detail_values i (received r))))) /\
       (det = false -> Forall (fun p => sets out (p ++ num (number (v_name s))) None) detail_names) /\
       (forallb (fun sr => no_blank (v_name (fst sr))) slots = true -> nth_error (split_on " " names) (number (v_name s) - 1) = Some (v_name s))) /\
    (forall s r s' r', In (s, r) slots -> In (s', r') slots -> number (v_name s) = number (v_name s') -> v_name s = v_name s') /\
    (forall k x, nth_error repos k = Some x -> repo_shown out (num (S k)) x).
Proof. exact c64_end_to_end_ok. Qed.
Print Assumptions C64_end_to_end.

(** What does not hold. *)
Theorem C64_primary_refuted : ~ (forall (c : cstatus string) det out, c_primary c = None -> status_shell x_iso det c = Ok out -> sets out "RAUC_BOOT_PRIMARY" (Some "") \/ sets out "RAUC_BOOT_PRIMARY" None).
Proof. exact c64_primary_refuted. Qed.
Print Assumptions C64_primary_refuted.
Theorem C64_blank_refuted : ~ (forall (c : cstatus string) det out names k s, status_shell x_iso det c = Ok out -> sets out "RAUC_SYSTEM_SLOTS" (Some names) ->
  nth_error (c_slots c) k = Some s -> nth_error (split_on " " names) k = Some (v_name s)).
Proof. exact c64_blank_refuted. Qed.
Print Assumptions C64_blank_refuted.
Theorem C64_count_refuted : ~ (forall slots s r c out det, service_ok x_iso slots -> In (s, r) slots -> det = true ->
  via_dbus x_iso det None None None None None slots [] (fun l => l) = Ok c -> status_shell x_iso det c = Ok out ->
  exists k, sets out ("RAUC_SLOT_STATUS_ACTIVATED_COUNT_" ++ num k) (Some (print_num 10 (rs_acount r)))).
Proof. exact c64_count_refuted. Qed.
Print Assumptions C64_count_refuted.

(** The hypotheses are met by a system with two slots and two repositories; its output: *)
Example ex_service : service_ok x_iso x_slots /\ forall l : list (vslot string), Permutation l (rev l).
Proof. split; [exact x_service | apply Permutation_rev]. Qed.
Example ex_out : exists c out l, via_dbus x_iso true (Some "acme") None (Some "1.0") (Some "A") (Some "rootfs.0") x_slots x_repos (@rev _) = Ok c /\
  status_shell x_iso true c = Ok out /\ sh_eval out = Some l /\
  value_of "RAUC_SYSTEM_SLOTS" l = Some "appfs.0 rootfs.0" /\ value_of "RAUC_SLOT_PARENT_1" l = Some "rootfs.0" /\
  value_of "RAUC_SLOT_MOUNTPOINT_1" l = Some "/mnt/a b" /\ value_of "RAUC_SLOT_MOUNTPOINT_2" l = Some "/" /\
  value_of "RAUC_SLOT_STATUS_BUNDLE_DESCRIPTION_2" l = Some "it's $HOME; rm -rf" /\ value_of "RAUC_BOOT_PRIMARY" l = Some "rootfs.0" /\
  value_of "RAUC_REPO_ARTIFACT_INSTANCE_ACTIVE_1_1_2" l = Some "0" /\ value_of "RAUC_REPO_ARTIFACT_INSTANCE_REFERENCES_2_1_1" l = Some "rootfs.0 rootfs.1".
Proof. eexists. eexists. eexists. split; [vm_compute; reflexivity |]. split; [vm_compute; reflexivity |]. split; [vm_compute; reflexivity |]. vm_compute. repeat split. Qed.
Example ex_info : exists out l, info_shell x_mf (Some "abc") = Ok out /\ sh_eval out = Some l /\ value_of "RAUC_MF_DESCRIPTION" l = Some "don't `reboot`" /\
  value_of "RAUC_IMAGE_NAME_1" l = Some "r2.img" /\ value_of "RAUC_IMAGE_HOOKS_0" l = Some "pre-install post-install" /\ value_of "RAUC_META_A_B_C" l = Some "2".
Proof. eexists. eexists. split; [vm_compute; reflexivity |]. split; [vm_compute; reflexivity |]. vm_compute. repeat split. Qed.
(** an output that a careless program could have printed is rejected by the evaluator *)
Example ex_unquoted : sh_eval ("A=it's $HOME" ++ String newline "") = None /\ sh_eval ("A=a b" ++ String newline "") = None /\ sh_eval ("A=$(reboot)" ++ String newline "") = None.
Proof. vm_compute. repeat split. Qed.
