(** Model of the set-up of the context (src/context.c:190-560) and of configuration overrides (src/main.c:2777-2803,
    src/config_file.c:1340-1345): which system configuration counts, and which variant the system has. *)
From Verif Require Import Base KeyFile Config.

(** ** which configuration *)

(** what a path leads to: g_file_get_contents fails (G_FILE_ERROR: missing, no permission, ..); an empty file; no key
    file (G_KEY_FILE_ERROR); a key file *)
Inductive cfile := CUnreadable | CEmptyFile | CNoKeyFile | CKeyFile (kf : keyfile).

(** include/config_file.h ConfigFileOverride *)
Record override := mkOverride { ov_section : string; ov_name : string; ov_value : string }.

(** main.c:2777-2803 collect_config_values: SECTION:KEY=VALUE; None: the command line is refused *)
Definition parse_override (value : string) : option override :=
  match g_strsplit_max "=" 2 value with
  | [sk; v] =>
      match g_strsplit_max ":" 2 sk with
      | [s; k] => Some (mkOverride s k v)
      | _ => None
      end
  | _ => None
  end.

(** config_file.c:1341-1345; section and key names are taken to be valid in a key file *)
Definition apply_overrides (ovs : list override) (kf : keyfile) : keyfile :=
  fold_left (fun kf o => kf_set kf (ov_section o) (ov_name o) (ov_value o)) ovs kf.

(** the errors of load_config (config_file.c:1446-1496) as far as they are told apart: LFile and LEmpty are
    G_FILE_ERROR and R_CONFIG_ERROR_EMPTY_FILE *)
Inductive lres := LOk (c : config) | LFile | LEmpty | LInvalid | LAbort.

Definition load_path (o1 o2 o3 : list cslot -> list cslot) (ovs : list override) (f : cfile) : lres :=
  match f with
  | CUnreadable => LFile
  | CEmptyFile => LEmpty
  | CNoKeyFile => LInvalid
  | CKeyFile kf =>
      match load_config o1 o2 o3 (apply_overrides ovs kf) with
      | Ok c => LOk c
      | Err => LInvalid
      | Abort => LAbort
      end
  end.

(** config_file.c:1423-1443 default_config *)
Definition default_config (o1 o2 : list cslot -> list cslot) (ovs : list override) : res config :=
  do (c, _) <- parse_config o1 o2 (apply_overrides ovs [("system", [])]) ;; Ok c.

(** include/context.h RContextConfigMode *)
Inductive cmode := ModeNone | ModeAuto | ModeRequired.

(** context.c:456-461 *)
Definition search_paths : list string := ["/etc/rauc/system.conf"; "/run/rauc/system.conf"; "/usr/lib/rauc/system.conf"].

(** context.c:480-487: the first path which exists; else the last one *)
Fixpoint find_path (present : string -> bool) (paths : list string) (cur : string) : string :=
  match paths with
  | [] => cur
  | p :: r => if present p then p else find_path present r p
  end.

(** the settings from the command line (include/context.h) *)
Record cmdline := mkCmdline {
  cl_mode : cmode;
  cl_config : option string;
  cl_overrides : list override;
  cl_mount : option string;
  cl_keyring : option string;
  cl_keydir : option string
}.

Record context := mkContext {
  x_config : config;
  x_source : option string;            (* the file it came from; None: the defaults *)
  x_mountprefix : string;
  x_keyring : option string;
  x_keydir : option string;
  x_target : bool                      (* r_context_configure_target was called *)
}.

Definition pick {A} (o : option A) (d : option A) : option A := match o with Some a => Some a | None => d end.
Definition make_context (cl : cmdline) (c : config) (src : option string) (target : bool) : context :=
  mkContext c src (match cl_mount cl with Some m => m | None => y_mountprefix (f_system c) end)
    (pick (cl_keyring cl) (k_path (f_keyring c))) (pick (cl_keydir cl) (k_directory (f_keyring c))) target.

(** context.c:463-560 r_context_configure, without r_context_configure_target *)
Definition configure (o1 o2 o3 : list cslot -> list cslot) (present : string -> bool) (files : string -> cfile) (cl : cmdline)
  : res context :=
  let mode := match cl_config cl with Some _ => ModeRequired | None => cl_mode cl end in
  let path := match cl_config cl with Some p => p | None => find_path present search_paths "" end in
  let defaults := do c <- default_config o1 o2 (cl_overrides cl) ;; Ok (make_context cl c None false) in
  match mode with
  | ModeRequired =>
      match load_path o1 o2 o3 (cl_overrides cl) (files path) with
      | LOk c => Ok (make_context cl c (Some path) true)
      | LAbort => Abort
      | _ => Err
      end
  | ModeAuto =>
      match load_path o1 o2 o3 (cl_overrides cl) (files path) with
      | LOk c => Ok (make_context cl c (Some path) false)
      | LFile | LEmpty => defaults
      | LInvalid => Err
      | LAbort => Abort
      end
  | ModeNone => defaults
  end.

(** ** the system variant *)

(** a C string ends at the first NUL *)
Fixpoint cstring (s : string) : string :=
  match s with
  | EmptyString => EmptyString
  | String a r => if Ascii.eqb a Ascii.zero then EmptyString else String a (cstring r)
  end.

(** context.c:280-304 get_variant_from_file: a newline at the end becomes a NUL *)
Fixpoint drop_newline (s : string) : string :=
  match s with
  | EmptyString => EmptyString
  | String a EmptyString => if Ascii.eqb a "010" then EmptyString else s
  | String a r => String a (drop_newline r)
  end.

(** context.c:232-252: the variables in the output (stdout and stderr) of the handler; later lines replace earlier
    ones.  Simplification: the output contains no NUL *)
Fixpoint read_vars (lines : list string) (vars : list (string * string)) : list (string * string) :=
  match lines with
  | [] => vars
  | l :: r =>
      read_vars r
        (if has_prefix "RAUC_" l
         then match g_strsplit_max "=" 2 l with
              | [k; v] => assoc_set k v vars
              | _ => vars
              end
         else vars)
  end.

(** the system-info handler: not configured; missing or not executable; its output and whether it exited with 0 *)
Inductive sihandler := NoHandler | NotStarted | Output (text : string) (exit_ok : bool).

(** context.c:200-259, 306-341 get_system_info_from_handler: the variables, None: an error *)
Definition system_info (h : sihandler) : res (list (string * string)) :=
  match h with
  | NoHandler => Ok []
  | NotStarted => Err
  | Output text ok => if ok then Ok (read_vars (split_on "010" text) []) else Err
  end.

(** g_strstrip *)
Definition strstrip (s : string) : string := chomp (chug s).

(** context.c:386-417: [dtb], [file]: the contents of the device tree's compatible property and of files, None if
    they cannot be read.  Returns the variant, the serial and the version of the system. *)
Definition configure_info (v : variant) (dtb : option string) (file : string -> option string) (h : sihandler)
  : res (option string * option string * option string) :=
  let v0 := match v with
            | VarNone => None
            | VarDtb => match dtb with Some s => Some (cstring s) | None => None end
            | VarFile f => match file f with Some s => Some (cstring (drop_newline s)) | None => None end
            | VarName n => Some n
            end in
  do vars <- system_info h ;;
  let v1 := match assoc "RAUC_SYSTEM_VARIANT" vars with Some s => Some s | None => v0 end in
  Ok (match v1 with Some s => Some (strstrip s) | None => None end,
      assoc "RAUC_SYSTEM_SERIAL" vars, assoc "RAUC_SYSTEM_VERSION" vars).
