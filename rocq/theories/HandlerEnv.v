(** Model of what handlers and the install-check hook are told and what is made of their answer:
    src/install.c:568-603, 662-994 and src/utils.c:109-145.  The environment is the list of "NAME=value" strings
    given to execve. *)
From Verif Require Import Base Slot Image KeyFile EnvKey Semver Manifest Handlers Install ShellOut.

Definition environ := list string.

(** GLib g_environ_find: strncmp (entry, variable, len) == 0 and entry[len] == '=' *)
Definition entry_of (k e : string) : bool := has_prefix (k ++ "=")%string e.

(** GLib g_environ_setenv for a non-NULL value: an existing entry is replaced in place, or kept without
    [overwrite]; a new one goes to the end.  A name with '=' is refused with a warning and NULL is returned,
    which the next call treats as an empty environment. *)
Fixpoint put (k v : string) (overwrite : bool) (env : environ) : environ :=
  match env with
  | [] => [pr k v]
  | e :: r => if entry_of k e then (if overwrite then pr k v else e) :: r else e :: put k v overwrite r
  end.
Definition setenv (k v : string) (overwrite : bool) (env : environ) : environ :=
  if has_char "=" k then [] else put k v overwrite env.

(** what the context knows *)
Record hctx := mkHctx {
  hx_config : string;                        (* configpath *)
  hx_compatible : option string;             (* config->system_compatible *)
  hx_variant : option string;                (* config->system_variant *)
  hx_version : option string;                (* system_version *)
  hx_bootslot : string;                      (* bootslot; not NULL once the slot states are known *)
  hx_mount_prefix : string;                  (* config->mount_prefix *)
  hx_sysinfo : list (string * string)        (* system_info, in iteration order *)
}.

(** install.c:662-686 add_system_environment *)
Definition add_system_environment (c : hctx) (env : environ) : environ :=
  let env := setenv "RAUC_SYSTEM_CONFIG" (hx_config c) true env in
  let env := setenv "RAUC_SYSTEM_COMPATIBLE" (ne (hx_compatible c)) true env in
  let env := setenv "RAUC_SYSTEM_VARIANT" (ne (hx_variant c)) true env in
  let env := setenv "RAUC_SYSTEM_VERSION" (ne (hx_version c)) true env in
  let env := setenv "RAUC_CURRENT_BOOTNAME" (hx_bootslot c) true env in
  let env := setenv "RAUC_MOUNT_PREFIX" (hx_mount_prefix c) true env in
  fold_left (fun env (kv : string * string) => setenv (fst kv) (snd kv) false env) (hx_sysinfo c) env.

(** the variables of the loop over the slots *)
Record lvars := mkLvars { lv_cnt : nat; lv_slots : string; lv_targets : string; lv_env : environ }.

(** g_string_append_c (s, ' ') if it is not empty, then the number *)
Definition add_number (s : string) (n : nat) : string :=
  ((if (0 <? String.length s)%nat then s ++ " " else s) ++ dec n)%string.

(** install.c:734-753 the first image for the class *)
Definition image_env (cnt : nat) (cls : string) (imgs : list image) (env : environ) : environ :=
  match find (fun i => String.eqb cls (im_class i)) imgs with
  | None => env
  | Some i =>
      let env := setenv ("RAUC_IMAGE_NAME_" ++ dec cnt) (ne (im_filename i)) true env in
      let env := setenv ("RAUC_IMAGE_DIGEST_" ++ dec cnt) (ne (im_digest i)) true env in
      setenv ("RAUC_IMAGE_CLASS_" ++ dec cnt) (im_class i) true env
  end.

(** install.c:728-758 the loop over the values of the target group *)
Definition member_step (imgs : list image) (s : slot) (v : lvars) (m : slot) : lvars :=
  if negb (same_slot s m) then v
  else mkLvars (lv_cnt v) (lv_slots v) (add_number (lv_targets v) (lv_cnt v)) (image_env (lv_cnt v) (sl_class s) imgs (lv_env v)).

(** install.c:760-783 *)
Definition slot_env (cnt : nat) (s : slot) (env : environ) : environ :=
  let env := setenv ("RAUC_SLOT_NAME_" ++ dec cnt) (sl_name s) true env in
  let env := setenv ("RAUC_SLOT_CLASS_" ++ dec cnt) (sl_class s) true env in
  let env := setenv ("RAUC_SLOT_TYPE_" ++ dec cnt) (sl_type s) true env in
  let env := setenv ("RAUC_SLOT_DEVICE_" ++ dec cnt) (sl_device s) true env in
  let env := setenv ("RAUC_SLOT_BOOTNAME_" ++ dec cnt) (ne (sl_bootname s)) true env in
  setenv ("RAUC_SLOT_PARENT_" ++ dec cnt) (ne (sl_parent s)) true env.

(** install.c:718-784 one slot *)
Definition slot_step (imgs : list image) (members : list slot) (v : lvars) (s : slot) : lvars :=
  let cnt := S (lv_cnt v) in
  let v := mkLvars cnt (add_number (lv_slots v) cnt) (lv_targets v) (lv_env v) in
  let v := fold_left (member_step imgs s) members v in
  mkLvars (lv_cnt v) (lv_slots v) (lv_targets v) (slot_env cnt s (lv_env v)).

(** shell.c:5-33 the strings made for the manifest's meta data *)
Definition meta_strings (meta : list (string * list (string * string))) : list string :=
  map (fun kv : string * string => pr (fst kv) (snd kv)) (meta_vars meta).

(** utils.c:109-129 r_environ_setenv_ptr_array, :131-147 r_subprocess_launcher_setenv_ptr_array; without '=':
    g_error aborts *)
Fixpoint setenv_strings (l : list string) (overwrite : bool) (env : environ) : res environ :=
  match l with
  | [] => Ok env
  | e :: r => match at_eq e with
              | None => Abort
              | Some (k, v) => setenv_strings r overwrite (setenv k v overwrite env)
              end
  end.

(** the values of the hash table target_group (slot class -> slot) *)
Definition members (tg : target_group) (slots : list slot) : list slot :=
  flat_map (fun c => match tg c with Some s => [s] | None => [] end) (nodup string_dec (map sl_class slots)).

(** install.c:701-794 prepare_environment; [base]: the environment of rauc itself, [source]: the mount point *)
Definition prepare_environment (c : hctx) (base : environ) (source : string) (m : manifest) (transaction : string)
    (slots : list slot) (tg : target_group) : res environ :=
  let env := add_system_environment c base in
  let env := setenv "RAUC_BUNDLE_MOUNT_POINT" source true env in
  let env := setenv "RAUC_UPDATE_SOURCE" source true env in
  let env := setenv "RAUC_TRANSACTION_ID" transaction true env in
  let v := fold_left (slot_step (mf_images m) (members tg slots)) slots (mkLvars 0 "" "" env) in
  let env := setenv "RAUC_SLOTS" (lv_slots v) true (lv_env v) in
  let env := setenv "RAUC_TARGET_SLOTS" (lv_targets v) true env in
  setenv_strings (meta_strings (mf_meta m)) false env.

(** *** output of handlers *)

(** what the user sees: a line printed by rauc itself, or a message for the user of the installation (D-Bus
    progress or command line) *)
Inductive shown := Printed (line : string) | Message (text : string).

(** install.c:568-603 parse_handler_output *)
Definition parse_handler_output (line : string) : option shown :=
  if negb (has_prefix "<< " line) then Some (Printed ("# " ++ line))
  else
    let split := g_strsplit_max " " 5 line in
    let f n := nth n split "" in
    if (List.length split <? 2)%nat then None
    else if String.eqb (f 1) "handler" && (3 <=? List.length split)%nat then Some (Message ("Handler status: " ++ f 2))
    else if String.eqb (f 1) "image" && (4 <=? List.length split)%nat then Some (Message ("Image '" ++ f 2 ++ "' status: " ++ f 3))
    else if String.eqb (f 1) "bootloader" && (3 <=? List.length split)%nat then Some (Message ("Bootloader status: " ++ f 2))
    else if String.eqb (f 1) "error" then Some (Message ("Error: " ++ join " " (skipn 2 split)))
    else if String.eqb (f 1) "debug" then Some (Message ("Debug: " ++ join " " (skipn 2 split)))
    else Some (Message ("Unknown handler output: " ++ line)).

(** how a program ends: an exit code, or killed by a signal *)
Inductive ended := Exited (code : nat) | Killed.
(** what became of starting a program: [None]: could not be started; otherwise the lines it wrote to the pipe
    (GDataInputStream: separated by newlines; an error while reading ends the lines) and how it ended *)
Definition ran := option (list string * ended).
(** g_subprocess_wait_check *)
Definition wait_check (e : ended) : bool := match e with Exited 0 => true | _ => false end.

Definition seen (lines : list string) : list shown :=
  flat_map (fun l => match parse_handler_output l with Some s => [s] | None => [] end) lines.

(** a program started by rauc *)
Record call := mkCall { cl_argv : list string; cl_env : environ }.

(** install.c:813-866 launch_and_wait_handler.  [exec]: the world outside *)
Definition launch_and_wait_handler (exec : call -> ran) (name : string) (argv : list string) (env : environ)
  : bool * list call * list shown :=
  let c := mkCall (name :: argv) env in
  match exec c with
  | None => (false, [c], [])
  | Some (lines, e) => (wait_check e, [c], seen lines)
  end.

(** GLib g_build_filename for a directory and a plain file name *)
Definition in_dir (dir file : string) : string := (dir ++ "/" ++ file)%string.

(** install.c:958-994 launch_and_wait_custom_handler.  [split] = g_shell_parse_argv; [extra]: handlerextra *)
Definition launch_and_wait_custom_handler (exec : call -> ran) (split : string -> option (list string))
    (bundledir handler : string) (args extra : option string) (env : environ) : bool * list call * list shown :=
  let words o := match o with None => Some [] | Some s => split s end in
  match words args with
  | None => (false, [], [])
  | Some a =>
      match words extra with
      | None => (false, [], [])
      | Some x => launch_and_wait_handler exec (in_dir bundledir handler) (a ++ x) env
      end
  end.

(** *** install-check hook *)

(** why an installation failed: rejected by the hook with its message, or anything else *)
Inductive hook_result := HookOk | HookRejected (reason : string) | HookFailed.

(** install.c:868-956 run_bundle_hook; INSTALL_HOOK_REJECT_CODE = 10.  Here the pipe is the hook's stderr. *)
Definition run_bundle_hook (exec : call -> ran) (c : hctx) (base : environ) (m : manifest) (bundledir hook cmd : string)
  : res (hook_result * list call) :=
  let env := setenv "RAUC_SYSTEM_COMPATIBLE" (ne (hx_compatible c)) true base in
  let env := setenv "RAUC_SYSTEM_VARIANT" (ne (hx_variant c)) true env in
  let env := setenv "RAUC_SYSTEM_VERSION" (ne (hx_version c)) true env in
  let env := setenv "RAUC_MF_COMPATIBLE" (ne (mf_compatible m)) true env in
  let env := setenv "RAUC_MF_VERSION" (ne (mf_version m)) true env in
  let env := setenv "RAUC_MF_BUILD" (ne (mf_build m)) true env in
  let env := setenv "RAUC_MOUNT_PREFIX" (hx_mount_prefix c) true env in
  do env <- setenv_strings (meta_strings (mf_meta m)) true env ;;
  let p := mkCall [in_dir bundledir hook; cmd] env in
  match exec p with
  | None => Ok (HookFailed, [p])
  | Some (lines, e) =>
      let msg := fold_left (fun _ l => Some l) lines None in
      Ok (match e with
          | Exited 0 => HookOk
          | Exited n => if (10 <=? n)%nat then match msg with Some t => HookRejected t | None => HookFailed end else HookFailed
          | Killed => HookFailed
          end, [p])
  end.
