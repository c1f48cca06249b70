(** Model of the shell output of "rauc info" and "rauc status" and of the way of the slot status from the
    service to the client: src/utils.c:81-107 r_ptr_array_env_to_shell, src/main.c:929-1033 (info),
    :1656-1808 (status), :1950-2176 (client side of D-Bus), :2178-2199 print_status,
    src/service.c:301-422 (service side), src/slot.c:97-145, src/artifacts.c:655-707 r_artifacts_to_dict. *)
From Verif Require Import Base Slot Image Manifest KeyFile StatusFile EnvKey ShellWords.

(** printf %d, %i of a counter.  Simplified: counters do not overflow a gint. *)
Definition dec (n : nat) : string := print_num 10 (N.of_nat n).
(** printf %lld of a goffset *)
Definition decz (z : Z) : string := if (z <? 0)%Z then ("-" ++ print_num 10 (Z.to_N (- z)))%string else print_num 10 (Z.to_N z).
(** s ?: "" *)
Definition ne (s : option string) : string := match s with Some x => x | None => EmptyString end.
(** printf %s of a NULL pointer (g_strdup_vprintf, glibc) *)
Definition pnull (s : option string) : string := match s with Some x => x | None => "(null)" end.

(** utils.c:69-79 r_ptr_array_add_printf (entries, "NAME=%s", value) *)
Definition pr (name value : string) : string := (name ++ String "=" value)%string.

(** ** utils.c:81-107 r_ptr_array_env_to_shell *)

(** strchr (element, '='): the parts before and after the first '=' *)
Fixpoint at_eq (s : string) : option (string * string) :=
  match s with
  | EmptyString => None
  | String c r => if Ascii.eqb c "=" then Some (EmptyString, r)
                  else option_map (fun kv => (String c (fst kv), snd kv)) (at_eq r)
  end.
Definition lf : ascii := "010"%char.
(** the loop :87-100; g_error aborts *)
Fixpoint shell_lines (l : list string) : res string :=
  match l with
  | [] => Ok EmptyString
  | e :: r => match at_eq e with
              | None => Abort
              | Some (k, v) => do rest <- shell_lines r ;; Ok (k ++ "=" ++ shell_quote v ++ String lf rest)%string
              end
  end.
(** :102-104 *)
Definition env_to_shell (l : list string) : res string :=
  do t <- shell_lines l ;; Ok (if (1 <? String.length t)%nat then stake (String.length t - 1) t else t).

(** ** main.c:952-1033 info_formatter_shell *)

(** manifest.c r_manifest_bundle_format_to_str *)
Definition format_str (f : bformat) : string := match f with F_PLAIN => "plain" | F_VERITY => "verity" | F_CRYPT => "crypt" end.
(** :969-979, :993-1009 *)
Definition flagged (l : list (bool * string)) : list string := flat_map (fun bw : bool * string => if fst bw then [snd bw] else []) l.

(** :983-1030 one image.  Simplified: a NULL string array and an empty one are both []. *)
Definition img_entries (cnt : nat) (i : image) : list string :=
  [pr ("RAUC_IMAGE_NAME_" ++ dec cnt) (ne (im_filename i));
   pr ("RAUC_IMAGE_CLASS_" ++ dec cnt) (im_class i);
   pr ("RAUC_IMAGE_ARTIFACT_" ++ dec cnt) (ne (im_artifact i));
   pr ("RAUC_IMAGE_VARIANT_" ++ dec cnt) (ne (im_variant i));
   pr ("RAUC_IMAGE_DIGEST_" ++ dec cnt) (ne (im_digest i));
   pr ("RAUC_IMAGE_SIZE_" ++ dec cnt) (decz (im_size i));
   pr ("RAUC_IMAGE_HOOKS_" ++ dec cnt)
      (join " " (flagged [(im_pre i, "pre-install"); (im_install i, "install"); (im_post i, "post-install")]))]
  ++ match im_adaptive i with [] => [] | l => [pr ("RAUC_IMAGE_ADAPTIVE_" ++ dec cnt) (join " " l)] end
  ++ match im_convert i with [] => [] | l => [pr ("RAUC_IMAGE_CONVERT_" ++ dec cnt) (join " " l)] end
  ++ match im_converted i with [] => [] | l => [pr ("RAUC_IMAGE_CONVERTED_" ++ dec cnt) (join " " l)] end.
Fixpoint numbered {A B} (f : nat -> A -> list B) (cnt : nat) (l : list A) : list B :=
  match l with [] => [] | x :: r => f cnt x ++ numbered f (S cnt) r end.
Definition info_entries (m : manifest) (hash : option string) : list string :=
  [pr "RAUC_MF_COMPATIBLE" (ne (mf_compatible m));
   pr "RAUC_MF_VERSION" (ne (mf_version m));
   pr "RAUC_MF_DESCRIPTION" (ne (mf_description m));
   pr "RAUC_MF_BUILD" (ne (mf_build m));
   pr "RAUC_MF_HASH" (ne hash);
   pr "RAUC_MF_FORMAT" (format_str (mf_format m));
   pr "RAUC_MF_IMAGES" (dec (List.length (mf_images m)));
   pr "RAUC_MF_HOOKS" (join " " (flagged [(mf_install_check m, "install-check")]))]
  ++ map (fun nv => pr (fst nv) (snd nv)) (meta_vars (mf_meta m))
  ++ numbered img_entries 0 (mf_images m).
(** what "rauc info --output-format=shell" prints (main.c:1388-1390); [hash]: manifest->hash *)
Definition info_shell (m : manifest) (hash : option string) : res string :=
  do t <- env_to_shell (info_entries m hash) ;; Ok (t ++ String lf EmptyString)%string.

(** ** D-Bus dictionaries: a{sv} with the value types used here *)
Inductive gval := VS (s : string) | VT (n : N) | VU (n : N).
Definition dict := list (string * gval).
(** g_variant_dict_insert: replaces *)
Definition dput (d : dict) (k : string) (v : gval) : dict := assoc_set k v d.
(** if (x) g_variant_dict_insert (...) *)
Definition dopt (d : dict) (k : string) (v : option gval) : dict := match v with Some x => dput d k x | None => d end.
(** g_variant_dict_lookup with "s", "t", "u": the variable stays as it is (NULL, 0) unless found with that type *)
Definition dget_s (d : dict) (k : string) : option string := match assoc k d with Some (VS s) => Some s | _ => None end.
Definition dget_t (d : dict) (k : string) : N := match assoc k d with Some (VT n) => n | _ => 0%N end.
Definition dget_u (d : dict) (k : string) : N := match assoc k d with Some (VU n) => n | _ => 0%N end.

(** ** slot.h:7-18, slot.c:97-145 *)
Inductive sstate := ST_UNKNOWN | ST_ACTIVE | ST_INACTIVE | ST_BOOTED.
Inductive bstate := B_UNKNOWN | B_GOOD | B_BAD.
Definition bstate_str (b : bstate) : string := match b with B_UNKNOWN => "unknown" | B_GOOD => "good" | B_BAD => "bad" end.
(** g_error aborts *)
Definition sstate_str (s : sstate) : res string :=
  match s with ST_ACTIVE => Ok "active" | ST_INACTIVE => Ok "inactive" | ST_BOOTED => Ok "booted" | ST_UNKNOWN => Abort end.
Definition sstate_of (s : option string) : sstate :=
  match s with
  | Some x => if String.eqb x "active" then ST_ACTIVE else if String.eqb x "inactive" then ST_INACTIVE
              else if String.eqb x "booted" then ST_BOOTED else ST_UNKNOWN
  | None => ST_UNKNOWN
  end.

(** The run-time view of a slot (struct _RaucSlot), in the service and in the client: [v_status] is
    slot->status (NULL in the client without --detailed).  Simplified: slot->parent is the parent's name;
    the description is left out (the shell output does not show it). *)
Record vslot (T : Type) := mkV {
  v_name : string; v_class : string; v_device : option string; v_type : option string; v_bootname : option string;
  v_state : sstate; v_parent : option string; v_mount : option string; v_ext_mount : option string;
  v_boot : bstate; v_status : option (rstat T) }.
Arguments mkV {T}. Arguments v_name {T}. Arguments v_class {T}. Arguments v_device {T}. Arguments v_type {T}. Arguments v_bootname {T}.
Arguments v_state {T}. Arguments v_parent {T}. Arguments v_mount {T}. Arguments v_ext_mount {T}. Arguments v_boot {T}. Arguments v_status {T}.

(** service.c:301-369 convert_slot_status_to_dict, after r_slot_status_load: [r] is slot->status *)
Definition slot_dict {T} (i : iso T) (s : vslot T) (r : rstat T) : res dict :=
  let d := dput [] "class" (VS (v_class s)) in
  let d := dopt d "device" (option_map VS (v_device s)) in
  let d := dopt d "type" (option_map VS (v_type s)) in
  let d := dopt d "bootname" (option_map VS (v_bootname s)) in
  do d <- match v_state s with ST_UNKNOWN => Ok d | x => do t <- sstate_str x ;; Ok (dput d "state" (VS t)) end ;;
  let d := dopt d "parent" (option_map VS (v_parent s)) in
  let d := dopt d "mountpoint" (option_map VS (match v_mount s with Some x => Some x | None => v_ext_mount s end)) in
  let d := dopt d "boot-status" (option_map (fun _ => VS (bstate_str (v_boot s))) (v_bootname s)) in
  let d := dopt d "bundle.compatible" (option_map VS (rs_compatible r)) in
  let d := dopt d "bundle.version" (option_map VS (rs_version r)) in
  let d := dopt d "bundle.description" (option_map VS (rs_description r)) in
  let d := dopt d "bundle.build" (option_map VS (rs_build r)) in
  let d := dopt d "bundle.hash" (option_map VS (rs_hash r)) in
  let d := dopt d "status" (option_map VS (rs_status r)) in
  let d := match rs_digest r with Some x => dput (dput d "sha256" (VS x)) "size" (VT (of_goffset (rs_size r))) | None => d end in
  let d := dopt d "installed.transaction" (option_map VS (rs_txn r)) in
  let d := match rs_installed r with
           | Some t => dput (dput d "installed.timestamp" (VS (iso_fmt i t))) "installed.count" (VU (rs_icount r)) | None => d end in
  let d := match rs_activated r with
           | Some t => dput (dput d "activated.timestamp" (VS (iso_fmt i t))) "activated.count" (VU (rs_acount r)) | None => d end in
  Ok d.

(** main.c:1950-1979 r_variant_get_slot_state *)
Definition get_state {T} (i : iso T) (d : dict) : rstat T :=
  mkRstat (dget_s d "bundle.compatible") (dget_s d "bundle.version") (dget_s d "bundle.description") (dget_s d "bundle.build")
    (dget_s d "bundle.hash") (dget_s d "status") (dget_s d "sha256") (to_goffset (dget_t d "size")) (dget_s d "installed.transaction")
    (match dget_s d "installed.timestamp" with Some x => iso_parse i x | None => None end) (dget_u d "installed.count")
    (match dget_s d "activated.timestamp" with Some x => iso_parse i x | None => None end) (dget_u d "activated.count").
(** main.c:2026-2081: one slot.  Simplified: a missing class (never sent) is the empty class. *)
Definition client_slot {T} (i : iso T) (detailed : bool) (name : string) (d : dict) : vslot T :=
  mkV name (ne (dget_s d "class")) (dget_s d "device") (dget_s d "type") (dget_s d "bootname")
    (sstate_of (dget_s d "state")) (dget_s d "parent") (dget_s d "mountpoint") None
    (match dget_s d "boot-status" with
     | Some x => if String.eqb x "good" then B_GOOD else if String.eqb x "bad" then B_BAD else B_UNKNOWN
     | None => B_UNKNOWN end)
    (if detailed then Some (get_state i d) else None).
(** :2023-2031 the slots in the order of the message; a second slot of the same name is skipped *)
Fixpoint client_slots {T} (i : iso T) (detailed : bool) (known : list string) (l : list (string * dict)) : list (vslot T) :=
  match l with
  | [] => []
  | (n, d) :: r => if existsb (String.eqb n) known then client_slots i detailed known r
                   else client_slot i detailed n d :: client_slots i detailed (n :: known) r
  end.
(** :2083-2095 the parents are looked up by name; g_assert_nonnull aborts *)
Definition parents_known {T} (l : list (vslot T)) : bool :=
  forallb (fun s => match v_parent s with Some p => existsb (fun t => String.eqb p (v_name t)) l | None => true end) l.

(** service.c:374-422 create_slotstatus_array, in the order of the service's hash table *)
Fixpoint slot_array {T} (i : iso T) (l : list (vslot T * rstat T)) : res (list (string * dict)) :=
  match l with
  | [] => Ok []
  | (s, r) :: t => do d <- slot_dict i s r ;; do rest <- slot_array i t ;; Ok ((v_name s, d) :: rest)
  end.

(** ** artifact repositories.  artifacts.c:655-707 sends every field that is set; the lookups of the client
    find what was sent (the two ends agree on names and types), so the dictionaries are kept as records. *)
Record ainst := mkAi { ai_checksum : string; ai_refs : list string }.
Record aart := mkAa { aa_name : string; aa_insts : list ainst }.
Record arepo := mkAr { ar_name : string; ar_path : option string; ar_type : option string; ar_parent : option string; ar_arts : list aart }.

(** ** main.c:1424-1434 RaucStatusPrint *)
Record cstatus (T : Type) := mkC {
  c_compatible : option string; c_variant : option string; c_version : option string; c_bootslot : option string;
  c_primary : option string;                 (* the name of the primary slot, NULL when unknown *)
  c_slots : list (vslot T);                  (* in the order of the hash table *)
  c_repos : list arepo }.
Arguments mkC {T}. Arguments c_compatible {T}. Arguments c_variant {T}. Arguments c_version {T}. Arguments c_bootslot {T}.
Arguments c_primary {T}. Arguments c_slots {T}. Arguments c_repos {T}.

(** main.c:929-950 formatter_shell_append_idx_str *)
Definition idx_str (varname : string) (idx : list nat) (cnt : nat) : string :=
  pr (List.fold_left (fun n i => (n ++ "_" ++ dec i)%string) idx varname) (join " " (map dec (seq 1 cnt))).

(** main.c:1702-1745 one slot.  [det]: --detailed *)
Definition slot_entries {T} (i : iso T) (det : bool) (n : nat) (s : vslot T) : res (list string) :=
  do st <- sstate_str (v_state s) ;;
  Ok ([pr ("RAUC_SLOT_STATE_" ++ dec n) st;
       pr ("RAUC_SLOT_CLASS_" ++ dec n) (v_class s);
       pr ("RAUC_SLOT_DEVICE_" ++ dec n) (pnull (v_device s));
       pr ("RAUC_SLOT_TYPE_" ++ dec n) (pnull (v_type s));
       pr ("RAUC_SLOT_BOOTNAME_" ++ dec n) (ne (v_bootname s));
       pr ("RAUC_SLOT_PARENT_" ++ dec n) (ne (v_parent s));
       pr ("RAUC_SLOT_MOUNTPOINT_" ++ dec n) (ne (v_mount s));
       pr ("RAUC_SLOT_BOOT_STATUS_" ++ dec n) (match v_bootname s with Some _ => bstate_str (v_boot s) | None => EmptyString end)]
      ++ match (if det then v_status s else None) with
         | None => []
         | Some r => [
             pr ("RAUC_SLOT_STATUS_BUNDLE_COMPATIBLE_" ++ dec n) (ne (rs_compatible r));
             pr ("RAUC_SLOT_STATUS_BUNDLE_VERSION_" ++ dec n) (ne (rs_version r));
             pr ("RAUC_SLOT_STATUS_BUNDLE_DESCRIPTION_" ++ dec n) (ne (rs_description r));
             pr ("RAUC_SLOT_STATUS_BUNDLE_BUILD_" ++ dec n) (ne (rs_build r));
             pr ("RAUC_SLOT_STATUS_BUNDLE_HASH_" ++ dec n) (ne (rs_hash r));
             pr ("RAUC_SLOT_STATUS_CHECKSUM_SHA256_" ++ dec n) (ne (rs_digest r));
             pr ("RAUC_SLOT_STATUS_CHECKSUM_SIZE_" ++ dec n) (decz (rs_size r));
             pr ("RAUC_SLOT_STATUS_INSTALLED_TIMESTAMP_" ++ dec n) (ne (option_map (iso_fmt i) (rs_installed r)));
             pr ("RAUC_SLOT_STATUS_INSTALLED_COUNT_" ++ dec n) (print_num 10 (rs_icount r));
             pr ("RAUC_SLOT_STATUS_ACTIVATED_TIMESTAMP_" ++ dec n) (ne (option_map (iso_fmt i) (rs_activated r)));
             pr ("RAUC_SLOT_STATUS_ACTIVATED_COUNT_" ++ dec n) (print_num 10 (rs_acount r));
             pr ("RAUC_SLOT_STATUS_STATUS_" ++ dec n) (ne (rs_status r))]
         end).
Fixpoint slots_entries {T} (i : iso T) (det : bool) (n : nat) (l : list (vslot T)) : res (list string) :=
  match l with
  | [] => Ok []
  | s :: r => do a <- slot_entries i det n s ;; do b <- slots_entries i det (S n) r ;; Ok (a ++ b)
  end.

(** main.c:1781-1799 one instance of an artifact; [par]: the repository has a parent class *)
Definition inst_entries (par : bool) (r a k : nat) (x : ainst) : list string :=
  [pr ("RAUC_REPO_ARTIFACT_INSTANCE_CHECKSUM_" ++ dec r ++ "_" ++ dec a ++ "_" ++ dec k) (ai_checksum x);
   if par then pr ("RAUC_REPO_ARTIFACT_INSTANCE_REFERENCES_" ++ dec r ++ "_" ++ dec a ++ "_" ++ dec k) (join " " (ai_refs x))
   else pr ("RAUC_REPO_ARTIFACT_INSTANCE_ACTIVE_" ++ dec r ++ "_" ++ dec a ++ "_" ++ dec k)
           (match ai_refs x with [] => "0" | _ => "1" end)].
(** :1768-1803 *)
Definition art_entries (par : bool) (r a : nat) (x : aart) : list string :=
  pr ("RAUC_REPO_ARTIFACT_NAME_" ++ dec r ++ "_" ++ dec a) (aa_name x)
  :: numbered (inst_entries par r a) 1 (aa_insts x)
  ++ [idx_str "RAUC_REPO_ARTIFACT_INSTANCES" [r; a] (List.length (aa_insts x))].
(** :1752-1806 *)
Definition opt_entry (name : string) (v : option string) : list string := match v with Some x => [pr name x] | None => [] end.
Definition repo_entries (r : nat) (x : arepo) : list string :=
  pr ("RAUC_REPO_NAME_" ++ dec r) (ar_name x)
  :: opt_entry ("RAUC_REPO_PATH_" ++ dec r) (ar_path x)
  ++ opt_entry ("RAUC_REPO_TYPE_" ++ dec r) (ar_type x)
  ++ opt_entry ("RAUC_REPO_PARENT_CLASS_" ++ dec r) (ar_parent x)
  ++ numbered (art_entries (match ar_parent x with Some _ => true | None => false end) r) 1 (ar_arts x)
  ++ [idx_str "RAUC_REPO_ARTIFACTS" [r] (List.length (ar_arts x))].

(** main.c:1656-1808 r_status_formatter_shell *)
Definition status_entries {T} (i : iso T) (det : bool) (c : cstatus T) : res (list string) :=
  do ss <- slots_entries i det 1 (c_slots c) ;;
  Ok ([pr "RAUC_SYSTEM_COMPATIBLE" (pnull (c_compatible c));
       pr "RAUC_SYSTEM_VARIANT" (pnull (c_variant c));
       pr "RAUC_SYSTEM_VERSION" (pnull (c_version c));
       pr "RAUC_SYSTEM_BOOTED_BOOTNAME" (pnull (c_bootslot c));
       pr "RAUC_BOOT_PRIMARY" (pnull (c_primary c));
       pr "RAUC_SYSTEM_SLOTS" (join " " (map v_name (c_slots c)));
       pr "RAUC_SLOTS" (join " " (map dec (seq 1 (List.length (c_slots c)))))]
      ++ ss ++ numbered repo_entries 1 (c_repos c)
      ++ [idx_str "RAUC_REPOS" [] (List.length (c_repos c))]).
(** main.c:2178-2199 print_status: g_strchomp, then "%s\n" *)
Definition status_shell {T} (i : iso T) (det : bool) (c : cstatus T) : res string :=
  do e <- status_entries i det c ;; do t <- env_to_shell e ;; Ok (chomp t ++ String lf EmptyString)%string.

(** ** main.c:2114-2176 retrieve_status_via_dbus.  A string property that is NULL in the service arrives as
    the empty string (gdbus).  The client's hash table has its own order: [order] is the order in which it is
    walked.  [primary]: the answer of GetPrimary, None for an error. *)
Definition dbus_prop (s : option string) : option string := Some (ne s).
Definition via_dbus {T} (i : iso T) (det : bool) (compatible variant version bootslot primary : option string)
    (slots : list (vslot T * rstat T)) (repos : list arepo) (order : list (vslot T) -> list (vslot T)) : res (cstatus T) :=
  do a <- slot_array i slots ;;
  let l := order (client_slots i det [] a) in
  if negb (parents_known l) then Abort else
  Ok (mkC (dbus_prop compatible) (dbus_prop variant) (dbus_prop version) (dbus_prop bootslot)
        (match primary with Some p => if existsb (fun s => String.eqb p (v_name s)) l then Some p else None | None => None end) l repos).
