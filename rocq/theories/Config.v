(** Model of src/config_file.c: loading the system configuration.

    Simplifications: the text format of GKeyFile is not modelled (see KeyFile.v); paths are
    kept as written (resolve_path is not modelled); extra-mkfs-opts is kept as text, the
    splitting into arguments with g_shell_parse_argv always succeeds; the build has
    streaming, JSON and composefs enabled; command line overrides are part of the key file. *)
From Verif Require Import Base KeyFile Semver Polling.

(** reading consumes keys: the parsing functions pass the remaining key file on *)
Definition M (A : Type) := keyfile -> res (A * keyfile).
Definition ret {A} (a : A) : M A := fun kf => Ok (a, kf).
Definition fail {A} : M A := fun _ => Err.
Definition mbind {A B} (m : M A) (f : A -> M B) : M B := fun kf => do (a, kf) <- m kf ;; f a kf.
Notation "'let*' x := m 'in' k" := (mbind m (fun x => k)) (at level 200, x binder, right associativity).
Notation "m1 ;;; k" := (mbind m1 (fun _ => k)) (at level 199, right associativity).
Definition guard (b : bool) : M unit := if b then ret tt else fail.

Definition has_group (kf : keyfile) (g : string) : bool := match kf_group kf g with Some _ => true | None => false end.

(** utils.c:385-409 key_file_consume_string *)
Inductive cons3 := NoGroup | NoKey | EmptyVal | Val (s : string).
Definition lookup3 (kf : keyfile) (g k : string) : cons3 :=
  match kf_group kf g with
  | None => NoGroup
  | Some l => match assoc k l with
              | None => NoKey
              | Some EmptyString => EmptyVal
              | Some s => Val s
              end
  end.
Definition consume (g k : string) : M cons3 := fun kf => Ok (lookup3 kf g k, kf_remove_key kf g k).
(** called with error == NULL *)
Definition get_null (g k : string) : M (option string) :=
  let* r := consume g k in ret (match r with Val s => Some s | _ => None end).
(** a missing key is tolerated, other errors are passed on *)
Definition get_opt (g k : string) : M (option string) :=
  let* r := consume g k in
  match r with Val s => ret (Some s) | NoKey => ret None | _ => fail end.
(** every error is passed on *)
Definition get_req (g k : string) : M string :=
  let* r := consume g k in match r with Val s => ret s | _ => fail end.

(** GLib g_key_file_get_boolean (trailing white space not modelled), followed by
    g_key_file_remove_key; a missing key gives [d] *)
Definition bool_value (s : string) : option bool :=
  if String.eqb s "true" || String.eqb s "1" then Some true
  else if String.eqb s "false" || String.eqb s "0" then Some false else None.
Definition remove_key (g k : string) : M unit := fun kf => Ok (tt, kf_remove_key kf g k).
Definition peek_bool (g k : string) : M (option bool) := fun kf =>
  match kf_group kf g with
  | None => Err
  | Some l => match assoc k l with
              | None => Ok (None, kf)
              | Some s => match bool_value s with Some b => Ok (Some b, kf) | None => Err end
              end
  end.
Definition get_bool (g k : string) (d : bool) : M bool :=
  let* b := peek_bool g k in
  remove_key g k ;;; ret (match b with Some b => b | None => d end).

(** GLib g_key_file_get_integer: strtol has to consume the whole value, gint range (trailing
    white space not modelled) *)
Definition int_value (s : string) : option Z :=
  let t := skip_space s in
  let '(neg, t) := match t with
                   | String c r => if Ascii.eqb c "-" then (true, r) else if Ascii.eqb c "+" then (false, r) else (false, t)
                   | EmptyString => (false, t)
                   end in
  if (match t with EmptyString => false | _ => true end)
     && all_chars (fun a => match digit_val a with Some d => (d <? 10)%N | None => false end) t
  then let v := Z.of_N (horner 10 0 t) in
       let v := if neg then (- v)%Z else v in
       if ((- 2 ^ 31 <=? v) && (v <? 2 ^ 31))%Z then Some v else None
  else None.
(** utils.c:428-443 key_file_consume_integer; a missing key gives None *)
Definition get_int (g k : string) : M (option Z) := fun kf =>
  match kf_group kf g with
  | None => Err
  | Some l => match assoc k l with
              | None => Ok (None, kf)
              | Some s => match int_value s with Some v => Ok (Some v, kf_remove_key kf g k) | None => Err end
              end
  end.
(** g_key_file_get_uint64 and g_key_file_remove_key *)
Definition get_u64 (g k : string) (d : N) : M N := fun kf =>
  match kf_group kf g with
  | None => Err
  | Some l => match assoc k l with
              | None => Ok (d, kf)
              | Some s => match strtoull_all s with Some v => Ok (v, kf_remove_key kf g k) | None => Err end
              end
  end.
(** g_key_file_get_string_list and g_key_file_remove_key; missing: None *)
Definition get_list (g k : string) : M (option (list string)) := fun kf =>
  match kf_group kf g with
  | None => Err
  | Some l => match assoc k l with
              | None => Ok (None, kf)
              | Some s => Ok (Some (value_list s), kf_remove_key kf g k)
              end
  end.
Definition mem (l : list string) (s : string) : bool := existsb (String.eqb s) l.
(** utils.c:485-525 key_file_consume_string_list *)
Definition get_list_allowed (g k : string) (allowed : option (list string)) : M (option (list string)) :=
  let* l := get_list g k in
  match l with
  | None | Some [] => ret None
  | Some l => guard (match allowed with Some a => forallb (mem a) l | None => true end) ;;; ret (Some l)
  end.

(** utils.c:445-483 key_file_consume_binary_suffixed_string: the value, given the string *)
Fixpoint after_digits (s : string) : string :=
  match s with
  | String c r => match digit_val c with Some d => if (d <? 10)%N then after_digits r else s | None => s end
  | EmptyString => s
  end.
Definition suffix_shift (s : string) : N :=
  match s with
  | EmptyString => 0
  | String c _ =>
      let l := N.lor (N_of_ascii c) 32 in
      if (l =? 107)%N then 10 else if (l =? 109)%N then 20 else if (l =? 103)%N then 30 else if (l =? 116)%N then 40 else 0
  end.
Definition binary_suffixed (s : string) : N :=
  let v := g_ascii_strtoull 10 s in
  if (v =? 0)%N then 0%N else
  let t := skip_space s in
  let t := match t with String c r => if Ascii.eqb c "-" || Ascii.eqb c "+" then r else t | EmptyString => t end in
  (N.shiftl v (suffix_shift (after_digits t)) mod 2 ^ 64)%N.
Definition get_size (g k : string) : M (option N) :=
  let* r := consume g k in
  match r with Val s => ret (Some (binary_suffixed s)) | NoKey => ret None | _ => fail end.

(** utils.c:371-383 check_remaining_keys, followed by g_key_file_remove_group *)
Definition check_keys (g : string) : M unit := fun kf => match kf_keys kf g with [] => Ok (tt, kf) | _ => Err end.
Definition remove_group (g : string) : M unit := fun kf => Ok (tt, kf_remove_group kf g).
Definition finish (g : string) : M unit := check_keys g ;;; remove_group g.
(** utils.c:357-369 check_remaining_groups *)
Definition check_groups : M unit := fun kf => match kf with [] => Ok (tt, kf) | _ => Err end.

(** ** Bundle formats *)

(** config_file.c:88-100: the bit numbers of R_MANIFEST_FORMAT_PLAIN, _VERITY, _CRYPT
    (include/manifest.h:17-21) *)
Definition format_bit (s : string) : option N :=
  if String.eqb s "plain" then Some 0%N
  else if String.eqb s "verity" then Some 1%N
  else if String.eqb s "crypt" then Some 2%N else None.

(** config_file.c:73-113 the loop of parse_bundle_formats; state: imask, set, modify *)
Fixpoint formats_loop (tokens : list string) (imask : N) (set modify : bool) : res (N * bool * bool) :=
  match tokens with
  | [] => Ok (imask, set, modify)
  | EmptyString :: r => formats_loop r imask set modify
  | String c t as tok :: r =>
      let minus := Ascii.eqb c "-" in
      let plus := negb minus && Ascii.eqb c "+" in
      let tok := if minus || plus then t else tok in
      match format_bit tok with
      | None => Err
      | Some f =>
          let imask := if plus || minus then imask else if set then imask else 0%N in
          let set' := if plus || minus then set else true in
          let modify := modify || plus || minus in
          let imask := if minus then N.ldiff imask (N.shiftl 1 f) else N.lor imask (N.shiftl 1 f) in
          formats_loop r imask set' modify
      end
  end.
(** config_file.c:58-132 parse_bundle_formats *)
Definition parse_bundle_formats (mask : N) (config : string) : res N :=
  do (r, modify) <- formats_loop (g_strsplit " " config) mask false false ;;
  let '(imask, set) := r in
  if set && modify then Err else if (imask =? 0)%N then Err else Ok imask.

(** ** Sections *)

Inductive variant := VarNone | VarDtb | VarFile (f : string) | VarName (n : string).

Record syscfg := mkSys {
  y_compatible : option string;
  y_min_bundle_version : option string;
  y_bootloader : option string;
  y_bb_statename : option string;
  y_bb_dtbpath : option string;
  y_grubenv : option string;
  y_efi_use_bootnext : bool;
  y_custom_backend : option string;
  y_boot_attempts : Z;
  y_boot_attempts_primary : Z;
  y_max_download : N;
  y_max_signature : N;
  y_mountprefix : string;
  y_activate_installed : bool;
  y_variant : variant;
  y_prevent_late_fallback : bool;
  y_data_directory : option string;
  y_statusfile : string;
  y_formats : N;
  y_pre_check : bool
}.

Definition zdef (o : option Z) (d : Z) : Z := match o with Some z => z | None => d end.
Definition sdef (o : option string) (d : string) : string := match o with Some z => z | None => d end.

(** config_file.c:328-357: keys which depend on the boot loader *)
Definition parse_bootloader_keys (bl : option string) : M (option string * option string * option string * bool * option string) :=
  if opt_is bl "barebox" then
    let* a := get_null "system" "barebox-statename" in
    let* b := get_null "system" "barebox-dtbpath" in ret (a, b, None, false, None)
  else if opt_is bl "grub" then
    let* g := get_null "system" "grubenv" in ret (None, None, Some (sdef g "/boot/grub/grubenv"), false, None)
  else if opt_is bl "efi" then
    let* b := get_bool "system" "efi-use-bootnext" true in ret (None, None, None, b, None)
  else if opt_is bl "custom" then
    let* h := get_null "handlers" "bootloader-custom-backend" in
    match h with Some _ => ret (None, None, None, false, h) | None => fail end
  else ret (None, None, None, false, None).

(** config_file.c:432-488 variant-dtb, variant-file, variant-name and (in between)
    prevent-late-fallback *)
Definition parse_variant : M (variant * bool) :=
  let* dtb := get_bool "system" "variant-dtb" false in
  let v := if dtb then VarDtb else VarNone in
  let* plf := get_bool "system" "prevent-late-fallback" false in
  let* f := get_opt "system" "variant-file" in
  let* v := match f with
            | Some f => match v with VarNone => ret (VarFile f) | _ => fail end
            | None => ret v
            end in
  let* n := get_opt "system" "variant-name" in
  let* v := match n with
            | Some n => match v with VarNone => ret (VarName n) | _ => fail end
            | None => ret v
            end in
  ret (v, plf).

(** config_file.c:503-545 data-directory and statusfile *)
Definition parse_status_location : M (option string * string) :=
  let* d := get_opt "system" "data-directory" in
  let* s := get_opt "system" "statusfile" in
  let s := match s with
           | Some s => s
           | None => match d with Some d => (d ++ "/central.raucs")%string | None => "per-slot" end
           end in
  match d with
  | Some _ => if String.eqb s "per-slot" then fail else ret (d, s)
  | None => ret (d, s)
  end.

(** config_file.c:287-586 parse_system_section *)
Definition parse_system : M syscfg :=
  let* compat := get_opt "system" "compatible" in
  let* minver := get_opt "system" "min-bundle-version" in
  guard (match minver with Some v => semver_le_bool "0" v | None => true end) ;;;
  let* bl := get_null "system" "bootloader" in
  let* blk := parse_bootloader_keys bl in
  let '(bbs, bbd, grub, bn, cust) := blk in
  let* ba := get_int "system" "boot-attempts" in
  guard (0 <=? zdef ba 0)%Z ;;;
  let* bap := get_int "system" "boot-attempts-primary" in
  guard (0 <=? zdef bap 0)%Z ;;;
  let* dl := get_u64 "system" "max-bundle-download-size" (8 * 1024 * 1024) in
  guard (negb (dl =? 0)%N) ;;;
  let* sg := get_u64 "system" "max-bundle-signature-size" (64 * 1024) in
  guard (negb (sg =? 0)%N) ;;;
  let* mp := get_null "system" "mountprefix" in
  let* act := get_bool "system" "activate-installed" true in
  let* vp := parse_variant in
  let '(var, plf) := vp in
  let* ds := parse_status_location in
  let '(dd, sf) := ds in
  let* bf := get_opt "system" "bundle-formats" in
  let* mask := match bf with
               | None => ret 7%N
               | Some s => match parse_bundle_formats 7 s with Ok m => ret m | _ => fail end
               end in
  let* pre := get_bool "system" "perform-pre-check" false in
  finish "system" ;;;
  ret (mkSys compat minver bl bbs bbd grub bn cust (zdef ba 0) (zdef bap 0) dl sg (sdef mp "/mnt/rauc/") act var plf dd sf mask pre).

Record keyringcfg := mkKeyring {
  k_path : option string; k_directory : option string; k_check_crl : bool; k_partial_chain : bool;
  k_signing_time : bool; k_check_purpose : option string; k_allowed_cns : option (list string)
}.
(** an optional section *)
Definition section {A} (g : string) (d : A) (m : M A) : M A := fun kf =>
  if has_group kf g then (let* a := m in finish g ;;; ret a) kf else Ok (d, kf).

(** config_file.c:588-668 parse_keyring_section *)
Definition no_keyring := mkKeyring None None false false false None None.
Definition parse_keyring : M keyringcfg :=
  section "keyring" no_keyring
   (let* p := get_null "keyring" "path" in
    let* d := get_null "keyring" "directory" in
    let* crl := get_bool "keyring" "check-crl" false in
    let* pc := get_bool "keyring" "allow-partial-chain" false in
    let* st := get_bool "keyring" "use-bundle-signing-time" false in
    let* cp := get_opt "keyring" "check-purpose" in
    let cp := if opt_is cp "codesign" then Some "codesign-rauc" else cp in
    let* cns := get_list "keyring" "allowed-signer-cns" in
    ret (mkKeyring p d crl pc st cp cns)).

(** config_file.c:670-710 parse_casync_section *)
Definition parse_casync : M (option string * option string * option string * bool) :=
  section "casync" (None, None, None, false)
   (let* s := get_null "casync" "storepath" in
    let* t := get_null "casync" "tmppath" in
    let* a := get_null "casync" "install-args" in
    let* d := get_bool "casync" "use-desync" false in
    ret (s, t, a, d)).

(** install.c:1761-1775 *)
Definition http_headers := ["boot-id"; "transaction-id"; "machine-id"; "system-version"; "serial"; "variant"; "uptime"].
(** config_file.c:712-752 parse_streaming_section *)
Definition parse_streaming : M (list (option string) * option (list string)) :=
  section "streaming" ([], None)
   (let* u := get_null "streaming" "sandbox-user" in
    let* c := get_null "streaming" "tls-cert" in
    let* k := get_null "streaming" "tls-key" in
    let* ca := get_null "streaming" "tls-ca" in
    let* h := get_list "streaming" "send-headers" in
    guard (match h with Some h => forallb (mem http_headers) h | None => true end) ;;;
    ret ([u; c; k; ca], h)).

(** polling.c:624-644 *)
Definition candidate_criteria := ["higher-semver"; "different-version"].
Definition install_criteria := ["always"; "higher-semver"; "different-version"].
Definition reboot_criteria := ["updated-slots"; "updated-artifacts"; "failed-update"].
(** config_file.c:754-857 parse_polling_section *)
Definition parse_polling : M (option (string * pconfig * option (list string) * string)) :=
  section "polling" None
   (let* inh := get_list_allowed "polling" "inhibit-files" None in
    let* cc := get_list_allowed "polling" "candidate-criteria" (Some candidate_criteria) in
    let* ic := get_list_allowed "polling" "install-criteria" (Some install_criteria) in
    let* rc := get_list_allowed "polling" "reboot-criteria" (Some reboot_criteria) in
    let* url := get_null "polling" "url" in
    match url with
    | None => fail
    | Some url =>
        guard (has_prefix "http" url) ;;;
        let* i := get_int "polling" "interval-sec" in
        guard (60 <=? zdef i (24 * 60 * 60))%Z ;;;
        let* m := get_int "polling" "max-interval-sec" in
        let* im := (fun kf => do r <- parse_intervals i m ;; Ok (r, kf)) in
        let* cmd := get_opt "polling" "reboot-cmd" in
        ret (Some (url, mkPC (fst im) (snd im) (match cc with Some c => c | None => ["higher-semver"] end) ic rc, inh, sdef cmd "reboot"))
    end).

(** config_file.c:859-883 parse_encryption_section, 885-906 parse_autoinstall_section,
    908-936 parse_handlers_section *)
Definition parse_encryption : M (option string * option string) :=
  section "encryption" (None, None)
   (let* k := get_null "encryption" "key" in let* c := get_null "encryption" "cert" in ret (k, c)).
Definition parse_autoinstall : M (option string) :=
  section "autoinstall" None (get_null "autoinstall" "path").
Definition parse_handlers : M (option string * option string * option string) :=
  section "handlers" (None, None, None)
   (let* s := get_null "handlers" "system-info" in
    let* a := get_null "handlers" "pre-install" in
    let* b := get_null "handlers" "post-install" in ret (s, a, b)).

(** event loggers, config_file.c:136-285 r_event_log_parse_config_sections *)
Record logger := mkLogger {
  g_name : string; g_filename : string; g_format : string; g_events : list string; g_maxsize : N; g_maxfiles : Z
}.
Definition event_types := ["all"; "boot"; "mark"; "install"; "service"; "writeslot"].
Definition log_formats := ["readable"; "short"; "json"; "json-pretty"].
Definition parse_logger (data_directory : option string) (g : string) : M logger :=
  let* fn := get_req g "filename" in
  let* fn := (if has_prefix "/" fn then ret fn
              else match data_directory with None => fail | Some d => ret (d ++ "/" ++ fn)%string end) in
  let* fmt := get_opt g "format" in
  let fmt := sdef fmt "readable" in
  guard (mem log_formats fmt) ;;;
  let* ev := get_list g "events" in
  let ev' := match ev with Some l => l | None => ["all"] end in
  guard (negb (Nat.ltb 1 (List.length ev') && mem ev' "all")) ;;;
  guard (forallb (mem event_types) ev') ;;;
  let* ms := get_size g "max-size" in
  let* mf := get_int g "max-files" in
  let mf := zdef mf 10 in
  guard ((1 <=? mf) && (mf <=? 1000))%Z ;;;
  finish g ;;;
  ret (mkLogger (sdrop 4 g) fn fmt ev' (match ms with Some n => n | None => 0%N end) mf).
Fixpoint mmap {A B} (f : A -> M (option B)) (l : list A) : M (list B) :=
  match l with
  | [] => ret []
  | a :: l => let* b := f a in let* r := mmap f l in ret (match b with Some b => b :: r | None => r end)
  end.
Definition groups : M (list string) := fun kf => Ok (kf_groups kf, kf).
Definition some {A} (m : M A) : M (option A) := let* a := m in ret (Some a).
Definition parse_loggers (data_directory : option string) : M (list logger) :=
  let* gs := groups in
  mmap (fun g => if has_prefix "log." g then some (parse_logger data_directory g) else ret None) gs.

(** ** Slots *)

(** include/slot.h:37-82; [c_parent]: name of the slot the parent pointer refers to *)
Record cslot := mkCS {
  c_name : string; c_class : string; c_device : string; c_type : string; c_description : option string;
  c_mkfs : option string; c_bootname : option string; c_parent_name : option string;
  c_allow_mounted : bool; c_readonly : bool; c_install_same : bool; c_mount_opts : option string; c_resize : bool;
  c_region_start : N; c_region_size : N; c_size_limit : N; c_efi_loader : option string; c_efi_cmdline : option string
}.

(** slot.c:152-176 *)
Definition slot_types := ["raw"; "ext4"; "ubifs"; "ubivol"; "nand"; "nor"; "boot-emmc"; "boot-mbr-switch"; "boot-gpt-switch"; "vfat"; "boot-raw-fallback"].

(** g_str_has_suffix *)
Definition has_suffix (p s : string) : bool :=
  Nat.leb (String.length p) (String.length s) && String.eqb (sdrop (String.length s - String.length p) s) p.

(** config_file.c:1044-1071: install-same and its deprecated names *)
Definition parse_install_same (g : string) : M bool :=
  let* a := peek_bool g "install-same" in
  let* r := match a with
            | Some b => ret b
            | None =>
                let* b := peek_bool g "force-install-same" in
                match b with
                | Some b => ret b
                | None => let* c := peek_bool g "ignore-checksum" in
                          ret (match c with Some b => b | None => true end)
                end
            end in
  remove_key g "install-same" ;;; remove_key g "force-install-same" ;;; remove_key g "ignore-checksum" ;;; ret r.

(** config_file.c:952-1121 body of the loop in parse_slots *)
Definition parse_slot (bootloader : option string) (g : string) (parts : list string) : M cslot :=
  match parts with
  | [_; cls; idx] =>
      let* desc := get_null g "description" in
      let* dev := get_req g "device" in
      let* ty := get_null g "type" in
      let ty := sdef ty "raw" in
      guard (mem slot_types ty) ;;;
      guard (negb (String.eqb ty "jffs2" && negb (has_prefix "/dev/" dev))) ;;;
      guard (negb (String.eqb ty "boot-emmc" && (has_suffix "boot0" dev || has_suffix "boot1" dev))) ;;;
      let* mkfs := get_null g "extra-mkfs-opts" in
      let* bn := get_null g "bootname" in
      guard (match bn with Some b => all_chars (fun c => negb (g_isspace c)) b | None => true end) ;;;
      let* par := get_null g "parent" in
      let* am := get_bool g "allow-mounted" false in
      let* ro := get_bool g "readonly" false in
      let* is := parse_install_same g in
      let* mo := get_null g "extra-mount-opts" in
      let* rs := get_bool g "resize" false in
      let* region := (if mem ["boot-mbr-switch"; "boot-gpt-switch"; "boot-raw-fallback"] ty then
                        let* a := get_size g "region-start" in
                        let* b := get_size g "region-size" in
                        match a, b with Some a, Some b => ret (a, b) | _, _ => fail end
                      else ret (0%N, 0%N)) in
      let* sl := (if String.eqb ty "boot-emmc" then
                    let* s := get_size g "size-limit" in ret (match s with Some s => s | None => 0%N end)
                  else ret 0%N) in
      let* efi := (if opt_is bootloader "efi" then
                     let* a := get_null g "efi-loader" in
                     let* b := get_null g "efi-cmdline" in ret (a, b)
                   else ret (None, None)) in
      finish g ;;;
      ret (mkCS (cls ++ "." ++ idx)%string cls dev ty desc mkfs bn par am ro is mo rs (fst region) (snd region) sl (fst efi) (snd efi))
  | _ => fail
  end.

Definition first_is (parts : list string) (s : string) : bool := match parts with p :: _ => String.eqb p s | [] => false end.

(** config_file.c:938-1126 parse_slots.  The slots are kept in the order of the file; names
    are unique because group names are. *)
Definition parse_slots (bootloader : option string) : M (list cslot) :=
  let* gs := groups in
  mmap (fun g => let parts := g_strsplit "." g in
                 if first_is parts "slot" then some (parse_slot bootloader g parts) else ret None) gs.

(** config_file.c:1128-1202 parse_artifact_repos (name, path, type, description) *)
Definition repo_types := ["files"; "trees"; "composefs"].
Record repo := mkRepo { p_name : string; p_path : string; p_type : string; p_description : option string }.
Definition parse_repo (g : string) (parts : list string) : M repo :=
  match parts with
  | [_; name] =>
      let* desc := get_null g "description" in
      let* path := get_req g "path" in
      let* ty := get_req g "type" in
      guard (mem repo_types ty) ;;;
      let* pc := get_null g "parent-class" in
      match pc with
      | Some _ => fail
      | None => finish g ;;; ret (mkRepo name path ty desc)
      end
  | _ => fail
  end.
Definition parse_repos : M (list repo) :=
  let* gs := groups in
  mmap (fun g => let parts := g_strsplit "." g in
                 if first_is parts "artifacts" then some (parse_repo g parts) else ret None) gs.

(** ** Parents *)

Definition find_slot (slots : list cslot) (n : string) : option cslot := find (fun s => String.eqb (c_name s) n) slots.

(** config_file.c:1212-1233: the first loop of resolve_slot_parents; [order]: the order in
    which the hash table gives the slots; result: the parent pointers *)
Fixpoint set_parents (slots order : list cslot) (par : string -> option string) : res (string -> option string) :=
  match order with
  | [] => Ok par
  | s :: r =>
      match c_parent_name s with
      | None => set_parents slots r par
      | Some pn =>
          match find_slot slots pn with
          | None => Err
          | Some p => match c_bootname s with
                      | Some _ => Err
                      | None => set_parents slots r (upd par (c_name s) (Some (c_name p)))
                      end
          end
      end
  end.

(** config_file.c:38-47: walk up to a slot without parent, at most [fuel] steps *)
Fixpoint walk (par : string -> option string) (fuel : nat) (p : string) : option string :=
  match par p with
  | None => Some p
  | Some q => match fuel with O => None | S f => walk par f q end
  end.
(** config_file.c:20-56 fix_grandparent_links *)
Fixpoint fix_links (order : list cslot) (par : string -> option string) : res (string -> option string) :=
  match order with
  | [] => Ok par
  | s :: r =>
      match par (c_name s) with
      | None => fix_links r par
      | Some p => match walk par 100 p with
                  | None => Err
                  | Some root => fix_links r (upd par (c_name s) (Some root))
                  end
      end
  end.
(** config_file.c:1204-1244 resolve_slot_parents; [o1], [o2]: iteration orders *)
Definition resolve_parents (slots o1 o2 : list cslot) : res (string -> option string) :=
  do par <- set_parents slots o1 (fun _ => None) ;; fix_links o2 par.

(** config_file.c:1246-1272 check_duplicate_bootnames *)
Fixpoint check_bootnames (order : list cslot) (seen : list string) : bool :=
  match order with
  | [] => true
  | s :: r => match c_bootname s with
              | None => check_bootnames r seen
              | Some b => if mem seen b then false else check_bootnames r (b :: seen)
              end
  end.
(** config_file.c:1274-1293 check_unique_slotclasses *)
Definition check_classes (slots : list cslot) (repos : list repo) : bool :=
  forallb (fun s => negb (mem (map p_name repos) (c_class s))) slots.

(** bootchooser.c:15-20 *)
Definition bootloaders := ["barebox"; "grub"; "uboot"; "efi"; "custom"; "noop"].
(** config_file.c:1498-1530 check_config_target *)
Definition check_target (y : syscfg) : bool :=
  match y_compatible y, y_bootloader y with
  | Some _, Some bl =>
      mem bootloaders bl &&
      (if ((0 <? y_boot_attempts y) || (0 <? y_boot_attempts_primary y))%Z
       then String.eqb bl "uboot" || String.eqb bl "barebox" else true)
  | _, _ => false
  end.

Record config := mkConfig {
  f_system : syscfg;
  f_keyring : keyringcfg;
  f_polling : option (string * pconfig * option (list string) * string);
  f_handlers : option string * option string * option string;
  f_loggers : list logger;
  f_slots : list cslot;
  f_parent : string -> option string;
  f_repos : list repo
}.

(** config_file.c:1330-1417 parse_config; [ord1], [ord2]: hash table orders *)
Definition parse_config (ord1 ord2 : list cslot -> list cslot) : M config :=
  let* y := parse_system in
  let* k := parse_keyring in
  parse_casync ;;;
  parse_streaming ;;;
  let* po := parse_polling in
  parse_encryption ;;;
  parse_autoinstall ;;;
  let* h := parse_handlers in
  let* lg := parse_loggers (y_data_directory y) in
  let* slots := parse_slots (y_bootloader y) in
  let* par := (fun kf => do p <- resolve_parents slots (ord1 slots) (ord2 slots) ;; Ok (p, kf)) in
  let* repos := parse_repos in
  check_groups ;;;
  ret (mkConfig y k po h lg slots par repos).

(** config_file.c:1449-1496 load_config; [kf]: the contents of the (non-empty) file *)
Definition load_config (ord1 ord2 ord3 : list cslot -> list cslot) (kf : keyfile) : res config :=
  do (c, _) <- parse_config ord1 ord2 kf ;;
  if negb (check_bootnames (ord3 (f_slots c)) []) then Err
  else if negb (check_classes (f_slots c) (f_repos c)) then Err
  else if negb (check_target (f_system c)) then Err
  else Ok c.
