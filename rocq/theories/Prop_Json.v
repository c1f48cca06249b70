(** C84: the JSON output of rauc info and rauc status, and the JSON event log. *)
From Coq Require Import Permutation.
From Verif Require Import Base KeyFile Image Manifest StatusFile ShellOut ShellOutSpec ShellOutE2E ShellOutCases Json JsonSpec JsonSaysSpec JsonProofs JsonSays JsonTells.
From Verif Require DbusInstall DbusInstallSpec LogText LogTextSpec.
Open Scope string_scope.

Theorem C84_info_json_says_what_the_manifest_says : forall gen pretty m hash, honest gen ->
  exists v l, json_read (info_text gen pretty m hash []) = Some v /\
  has v "compatible" (str_or_null (mf_compatible m)) /\ has v "version" (str_or_null (mf_version m)) /\
  has v "description" (str_or_null (mf_description m)) /\ has v "build" (str_or_null (mf_build m)) /\
  has v "format" (JStr (match mf_format m with F_PLAIN => "plain" | F_VERITY => "verity" | F_CRYPT => "crypt" end)) /\
  has v "hooks" (set_flags [("install-check", mf_install_check m)]) /\ has v "hash" (str_or_null hash) /\
  has v "images" (JArr l) /\ Forall2 image_told (mf_images m) l.
Proof. exact c84_info_ok. Qed.
Print Assumptions C84_info_json_says_what_the_manifest_says.
Theorem C84_info_json2_says_what_the_manifest_says : forall gen m hash, honest gen -> DbusInstallSpec.meta_ok m ->
  exists v l, json_read (info_text2 gen m hash) = Some v /\
  told v ["manifest-hash"] hash /\
  told v ["update"; "compatible"] (mf_compatible m) /\ told v ["update"; "version"] (mf_version m) /\
  told v ["update"; "description"] (mf_description m) /\ told v ["update"; "build"] (mf_build m) /\
  has_at v ["bundle"; "format"] (JStr (match mf_format m with F_PLAIN => "plain" | F_VERITY => "verity" | F_CRYPT => "crypt" end)) /\
  told v ["bundle"; "verity-hash"] (mf_verity_hash m) /\ told v ["bundle"; "verity-salt"] (mf_verity_salt m) /\
  told v ["hooks"; "filename"] (mf_hook m) /\
  (mf_hook m <> None -> has_at v ["hooks"; "hooks"] (set_flags [("install-check", mf_install_check m)])) /\
  told v ["handler"; "filename"] (mf_handler m) /\ (mf_handler m <> None -> told v ["handler"; "args"] (mf_handler_args m)) /\
  has_at v ["images"] (JArr l) /\ Forall2 image_told2 (mf_images m) l /\
  (forall g k, told v ["meta"; g; k] (match assoc g (mf_meta m) with Some d => assoc k d | None => None end)).
Proof. exact c84_info2_ok. Qed.
Print Assumptions C84_info_json2_says_what_the_manifest_says.
Theorem C84_info_json_with_dumps_refuted : exists m hash dump, forall gen, honest gen -> exists v, json_read (info_text gen true m hash []) = Some v /\ json_read (info_text gen true m hash [dump]) = None.
Proof. exact c84_dump_refuted. Qed.
Print Assumptions C84_info_json_with_dumps_refuted.
Theorem C84_status_json_says_what_is_known : forall (T : Type) (i : iso T) gen pretty det c, honest gen ->
  (forall s, In s (c_slots c) -> v_state s <> ST_UNKNOWN) ->
  exists text v l r, status_text gen i pretty det c = Ok text /\ json_read text = Some v /\
  has v "compatible" (str_or_null (c_compatible c)) /\ has v "variant" (str_or_null (c_variant c)) /\
  has v "system_version" (str_or_null (c_version c)) /\ has v "booted" (str_or_null (c_bootslot c)) /\
  has v "boot_primary" (str_or_null (c_primary c)) /\
  has v "slots" (JArr l) /\ Forall2 (fun s j => slot_told i s (v_mount s) (if det then v_status s else None) j) (c_slots c) l /\
  has v "artifact-repositories" (JArr r) /\ Forall2 repo_told (c_repos c) r.
Proof. exact c84_status_ok. Qed.
Print Assumptions C84_status_json_says_what_is_known.
Theorem C84_status_json_from_the_service : forall (T : Type) (i : iso T) gen pretty det compatible variant version bootslot primary (slots : list (vslot T * rstat T)) repos order,
  honest gen -> service_ok i slots -> (forall l, Permutation l (order l)) ->
  exists c text v l r sl, via_dbus i det compatible variant version bootslot primary slots repos order = Ok c /\
  status_text gen i pretty det c = Ok text /\ json_read text = Some v /\
  has v "compatible" (JStr (or_empty compatible)) /\ has v "variant" (JStr (or_empty variant)) /\
  has v "system_version" (JStr (or_empty version)) /\ has v "booted" (JStr (or_empty bootslot)) /\
  (forall p, primary = Some p -> In p (map (fun sr => v_name (fst sr)) slots) -> has v "boot_primary" (JStr p)) /\
  (primary = None -> has v "boot_primary" JNull) /\
  has v "slots" (JArr l) /\ Permutation slots sl /\
  Forall2 (fun sr j => slot_told i (fst sr) (match v_mount (fst sr) with Some x => Some x | None => v_ext_mount (fst sr) end)
                         (if det then Some (received (snd sr)) else None) j) sl l /\
  has v "artifact-repositories" (JArr r) /\ Forall2 repo_told repos r.
Proof. exact c84_end_to_end_ok. Qed.
Print Assumptions C84_status_json_from_the_service.
Theorem C84_status_json_unknown_state_aborts : forall (T : Type) (i : iso T) gen pretty det c,
  (exists s, In s (c_slots c) /\ v_state s = ST_UNKNOWN) -> status_text gen i pretty det c = Abort.
Proof. exact c84_status_aborts_ok. Qed.
Print Assumptions C84_status_json_unknown_state_aborts.
Theorem C84_json_log_can_be_read_back : forall gen p l, honest gen ->
  exists vs, json_stream (json_log gen p l) = Some vs /\ Forall2 (fun x v => event_told (fst x) (snd x) v) l vs.
Proof. exact c84_log_ok. Qed.
Print Assumptions C84_json_log_can_be_read_back.
Theorem C84_compact_log_is_one_line_per_event : forall gen l, honest gen ->
  exists lines, split_on line_break (json_log gen false l) = (lines ++ [""])%list /\
  Forall2 (fun x s => exists v, json_read (s ++ String line_break "") = Some v /\ event_told (fst x) (snd x) v) l lines.
Proof. exact c84_log_lines_ok. Qed.
Print Assumptions C84_compact_log_is_one_line_per_event.
Theorem C84_a_generator_as_assumed : honest json_text.
Proof. exact c84_generator_ok. Qed.
Print Assumptions C84_a_generator_as_assumed.

(** the text of a bundle with two images *)
Example ex_info_text : json_read (info_text json_text true x_mf (Some "ab") []) = Some (info_json x_mf (Some "ab")).
Proof. vm_compute. reflexivity. Qed.
Example ex_meta_ok : DbusInstallSpec.meta_ok x_mf.
Proof. split; repeat constructor; cbn; intuition discriminate. Qed.
Example ex_info2 : json_read (info_text2 json_text x_mf None) = Some (info_json2 x_mf None) /\ has_at (info_json2 x_mf None) ["meta"; "a"; "b-c"] (JStr "1").
Proof. split; [vm_compute; reflexivity |]. repeat (eexists; split; [eexists; split; vm_compute; reflexivity |]). reflexivity. Qed.
(** a status of two slots (see C64): the service's state is known *)
Example ex_service : service_ok x_iso x_slots.
Proof. exact x_service. Qed.
Definition ex_text : string := match via_dbus x_iso true (Some "acme") None (Some "1") (Some "A") (Some "rootfs.0") x_slots x_repos (fun l => l) with
  | Ok c => match status_text json_text x_iso true true c with Ok t => t | _ => "" end | _ => "" end.
Example ex_status : exists v, json_read ex_text = Some v /\ has v "compatible" (JStr "acme") /\ has v "variant" (JStr "") /\ has v "boot_primary" (JStr "rootfs.0") /\
  exists a b d, has v "slots" (JArr [JObj [("rootfs.0", a)]; JObj [("appfs.0", b)]]) /\ has a "state" (JStr "booted") /\ has b "boot_status" JNull /\
  has a "slot_status" d /\ has_at d ["installed"; "count"] (JInt 3).
Proof.
  destruct (json_read ex_text) as [v |] eqn:E; [| vm_compute in E; discriminate E]. exists v. split; [reflexivity |]. vm_compute in E. injection E as <-.
  repeat (split; [eexists; split; reflexivity |]).
  eexists. eexists. eexists. split; [eexists; split; reflexivity |]. repeat (split; [eexists; split; reflexivity |]).
  eexists. split; [eexists; split; reflexivity |]. eexists. split; [eexists; split; reflexivity | reflexivity].
Qed.
(** line breaks in a message forge nothing *)
Example ex_log_json : exists s, json_log json_text false [("T0", LogText.EvMessage "install" (String line_break "T1: forged")); ("T2", LogText.EvGood "rootfs.0" None)] = s /\
  json_stream s = Some [JObj [("TS", JStr "T0"); ("RAUC_EVENT_TYPE", JStr "install"); ("MESSAGE", JStr (String line_break "T1: forged"))];
    JObj [("TS", JStr "T2"); ("RAUC_EVENT_TYPE", JStr "mark"); ("SLOT_NAME", JStr "rootfs.0"); ("SLOT_BOOTNAME", JStr ""); ("MESSAGE", JStr "Marked slot rootfs.0 as good")]].
Proof. eexists. split; [reflexivity |]. vm_compute. reflexivity. Qed.
