(** Model of the command line of rauc (src/main.c:399-1420, 2205-2320, 2435-2520, 2540-3090): which operations a call
    leads to and with which exit code it ends.  The operations themselves are modelled elsewhere (check_bundle: C36;
    create, resign, convert, ..: C57, C62, C63; install: C69; marking: C14); here each one succeeds or fails as an
    arbitrary oracle says.

    Simplifications: options are given by their long names, with their arguments attached (the parsing of GOption is
    trusted); no positional argument starts with a dash; the process is not busy (a fresh process never is); messages are left out. *)
From Verif Require Import Base Handlers.
Open Scope list_scope.

(** meson options *)
Record features := mkFeatures { ft_create : bool; ft_service : bool; ft_streaming : bool; ft_json : bool }.

Inductive command :=
  CHelp | CInstall | CBundle | CResign | CConvert | CEncrypt | CReplaceSig | CExtractSig | CExtract | CInfo | CStatus | CWriteSlot | CService | CMount.

(** main.c:2828-2887 rcommands *)
Definition commands (f : features) : list (string * command) :=
  [("help", CHelp); ("install", CInstall)]%string ++
  (if ft_create f then [("bundle", CBundle); ("resign", CResign); ("convert", CConvert); ("encrypt", CEncrypt); ("replace-signature", CReplaceSig); ("extract-signature", CExtractSig)]%string else []) ++
  [("extract", CExtract); ("info", CInfo); ("status", CStatus); ("write-slot", CWriteSlot)]%string ++
  (if ft_service f then [("service", CService)]%string else []) ++ [("mount", CMount)]%string.

Inductive cmode := ModeNone | ModeAuto | ModeRequired.
(** .. the configuration mode of each, with main.c:3004-3009 *)
Definition mode_of (f : features) (c : command) : cmode :=
  match c with
  | CHelp | CBundle | CResign | CConvert | CEncrypt | CReplaceSig | CExtractSig => ModeNone
  | CExtract | CInfo => ModeAuto
  | CInstall | CStatus => if ft_service f then ModeNone else ModeRequired
  | CWriteSlot | CService | CMount => ModeRequired
  end.

(** main.c:2809-2826 *)
Definition main_options : list string :=
  ["conf"; "confopt"; "cert"; "key"; "keyring"; "intermediate"; "mount"; "debug"; "version"; "help"].

Definition access_options : list string := ["tls-cert"; "tls-key"; "tls-ca"; "tls-no-verify"; "http-header"].
Definition signing_options : list string := ["cert"; "key"; "intermediate"; "signing-keyring"].

(** main.c:2574-2690, 2705-2771: the options of each command *)
Definition options_of (f : features) (c : command) : list string :=
  match c with
  | CHelp | CMount => []
  | CInstall =>
      ["ignore-compatible"; "ignore-version-limit"; "transaction-id"; "require-manifest-hash"]%string ++
      (if ft_service f then ["progress"]%string else ["handler-args"; "keyring"; "override-boot-slot"]%string) ++ (if ft_streaming f then access_options else [])
  | CBundle => ["mksquashfs-args"]%string ++ signing_options
  | CResign => ["append"; "keyring"; "no-verify"; "no-check-time"]%string ++ signing_options
  | CReplaceSig => ["trust-environment"; "keyring"; "no-verify"; "signing-keyring"]
  | CConvert => ["trust-environment"; "keyring"; "no-verify"; "mksquashfs-args"; "casync-args"; "ignore-image"]%string ++ signing_options
  | CEncrypt => ["to"; "keyring"]
  | CExtractSig | CExtract => ["key"; "keyring"; "trust-environment"]
  | CInfo => ["keyring"; "no-verify"; "no-check-time"; "key"; "output-format"; "dump-cert"; "dump-recipients"]%string ++ (if ft_streaming f then access_options else [])
  | CStatus => ["detailed"; "output-format"]%string ++ (if ft_service f then [] else ["override-boot-slot"]%string)
  | CWriteSlot => ["image-type"; "image-type-compat"]
  | CService => ["handler-args"; "keyring"; "override-boot-slot"]
  end.

Definition opts := list (string * string).
Definition flag (o : opts) (n : string) : bool := existsb (fun x => String.eqb (fst x) n) o.
(** the last value given *)
Definition value (o : opts) (ns : list string) : option string :=
  match rev (filter (fun x => existsb (String.eqb (fst x)) ns) o) with [] => None | x :: _ => Some (snd x) end.
Definition values (o : opts) (n : string) : list string := map snd (filter (fun x => String.eqb (fst x) n) o).

(** the operations *)
Inductive op :=
| OCheck (bundle : string) (no_verify no_time trust_env access : bool)   (* check_bundle; access: with TLS and HTTP settings *)
| OCreate (out content : string)
| OResign (out : string) (append : bool)
| OReplace (signature out : string)
| OExtractSig (out : string)
| OExtract (dir : string)
| OConvert (out : string) (ignore : list string)
| OEncrypt (out : string)
| OLoadManifest                                                          (* load_manifest_from_bundle *)
| OShow (format : string)
| OMount
| OWrite (slot image type : string)
| OInstall (bundle : string)
| OGetStatus
| OPrintStatus (format : string)
| OMark (state slot : string)
| OService.

(** what the operations meet *)
Record env := mkEnv {
  e_cwd : string;
  e_is_dir : string -> bool;
  e_resolve : string -> option string;             (* resolve_bundle_path, see DbusInstall.resolve_bundle *)
  e_configured : cmode -> bool;                    (* r_context_configure, see Context.configure *)
  e_slots : list (string * bool);                  (* name and readonly *)
  e_readable : string -> bool;                     (* g_file_read and the query of the size *)
  e_handler : string -> string -> bool;            (* get_update_handler for a slot name and an image type *)
  e_has_manifest : bool;                           (* bundle->manifest after check_bundle *)
  e_install_code : nat                             (* the exit code of a started installation, see C69 *)
}.

Definition log := list (op * bool).
Definition oracle := log -> op -> bool.
Definition M := log -> nat * log.

Definition fail_usage : M := fun l => (1, l).
Definition done : M := fun l => (0, l).
(** an operation; on failure a message and exit code 1 *)
Definition try (W : oracle) (o : op) (k : M) : M := fun l => let b := W l o in if b then k (l ++ [(o, b)]) else (1, l ++ [(o, b)]).
Definition guard (b : bool) (k : M) : M := if b then k else fail_usage.

(** utils.c:328-342 resolve_path (NULL, path); the prefix pkcs11: is never a directory *)
Fixpoint rstrip (s : string) : string :=
  match s with
  | EmptyString => EmptyString
  | String c r => match rstrip r with
                  | EmptyString => if Ascii.eqb c "/" then EmptyString else String c EmptyString
                  | r' => String c r'
                  end
  end.
Definition build_filename (dir name : string) : string :=
  match name with EmptyString => dir | _ => (rstrip dir ++ "/" ++ name)%string end.
Definition resolve_path (cwd path : string) : string :=
  if has_prefix "pkcs11:" path then path else if has_prefix "/" path then path else build_filename cwd path.

(** g_path_get_dirname *)
Fixpoint before_last_slash (s : string) : option string :=
  match s with
  | EmptyString => None
  | String c r => match before_last_slash r with
                  | Some p => Some (String c p)
                  | None => if Ascii.eqb c "/" then Some EmptyString else None
                  end
  end.
Definition dirname (s : string) : string :=
  match before_last_slash s with
  | None => "."
  | Some p => match rstrip p with EmptyString => "/" | q => q end
  end.

(** main.c:443-447, 802-804: one slash at the end is removed *)
Fixpoint strip_slash (s : string) : string :=
  match s with
  | EmptyString => EmptyString
  | String c EmptyString => if Ascii.eqb c "/" then EmptyString else s
  | String c r => String c (strip_slash r)
  end.

(** main.c:433-453: the bundle must not be inside of the content *)
Definition outside_check (cwd content out : string) : bool :=
  negb (has_prefix (strip_slash (resolve_path cwd content)) (dirname (resolve_path cwd out))).

(** main.c:399-467 bundle_start *)
Definition bundle_start (W : oracle) (e : env) (o : opts) (args : list string) : M :=
  match args with
  | [content; out] =>
      guard (flag o "cert" && flag o "key") (
      guard (e_is_dir e (resolve_path (e_cwd e) content)) (
      guard (outside_check (e_cwd e) content out) (
      try W (OCreate out content) done)))
  | _ => fail_usage
  end.

(** main.c:469-571 write_slot_start *)
Definition write_slot_start (W : oracle) (e : env) (o : opts) (args : list string) : M :=
  match args with
  | [slot; image] =>
      guard (e_readable e image) (
      match (match value o ["image-type"; "image-type-compat"]%string with Some t => Some t | None => derive_image_type image end) with
      | None => fail_usage
      | Some ty =>
          guard (is_image_type_supported ty) (
          match find (fun s => String.eqb (fst s) slot) (e_slots e) with
          | None => fail_usage
          | Some (_, readonly) =>
              guard (negb readonly) (guard (e_handler e slot ty) (try W (OWrite slot image ty) done))
          end)
      end)
  | _ => fail_usage
  end.

(** main.c:573-622 resign_start *)
Definition resign_start (W : oracle) (o : opts) (args : list string) : M :=
  match args with
  | [inb; outb] =>
      guard (flag o "cert" && flag o "key") (
      try W (OCheck inb (flag o "no-verify") (flag o "no-check-time") false false) (
      try W (OResign outb (flag o "append")) done))
  | _ => fail_usage
  end.

(** main.c:624-681 replace_signature_start *)
Definition replace_start (W : oracle) (o : opts) (args : list string) : M :=
  match args with
  | [inb; sig; outb] =>
      try W (OCheck inb (flag o "no-verify") false (flag o "trust-environment") false) (try W (OReplace sig outb) done)
  | _ => fail_usage
  end.

(** main.c:683-732 extract_signature_start *)
Definition extract_signature_start (W : oracle) (o : opts) (args : list string) : M :=
  match args with
  | [inb; out] => try W (OCheck inb false false (flag o "trust-environment") false) (try W (OExtractSig out) done)
  | _ => fail_usage
  end.

(** main.c:734-790 extract_start *)
Definition extract_start (W : oracle) (o : opts) (args : list string) : M :=
  match args with
  | [inb; out] => try W (OCheck inb false false (flag o "trust-environment") false) (try W (OExtract (strip_slash out)) done)
  | _ => fail_usage
  end.

(** main.c:792-850 convert_start *)
Definition convert_start (W : oracle) (o : opts) (args : list string) : M :=
  guard (flag o "cert" && flag o "key") (
  match args with
  | [inb; outb] =>
      try W (OCheck inb (flag o "no-verify") false (flag o "trust-environment") false) (try W (OConvert outb (values o "ignore-image")) done)
  | _ => fail_usage
  end).

(** main.c:852-905 encrypt_start *)
Definition encrypt_start (W : oracle) (o : opts) (args : list string) : M :=
  guard (flag o "to") (
  match args with
  | [inb; outb] => try W (OCheck inb false false false false) (try W (OEncrypt outb) done)
  | _ => fail_usage
  end).

(** main.c:1345-1358 *)
Definition info_format (f : features) (o : opts) : option string :=
  match value o ["output-format"%string] with
  | None => Some "readable"%string
  | Some x => if existsb (String.eqb x) (["readable"; "shell"]%string ++ (if ft_json f then ["json"; "json-pretty"; "json-2"]%string else [])) then Some x else None
  end.

(** main.c:1320-1424 info_start *)
Definition info_start (f : features) (W : oracle) (e : env) (o : opts) (args : list string) : M :=
  match args with
  | [b] =>
      match info_format f o with
      | None => fail_usage
      | Some fmt =>
          match e_resolve e b with
          | None => fail_usage
          | Some path =>
              try W (OCheck path (flag o "no-verify") (flag o "no-check-time") false true) (
              if e_has_manifest e then (fun l => (0, l ++ [(OShow fmt, true)]))
              else try W OLoadManifest (fun l => (0, l ++ [(OShow fmt, true)])))
          end
      end
  | _ => fail_usage
  end.

(** main.c:2178-2199 print_status *)
Definition status_format (f : features) (o : opts) : option string :=
  match value o ["output-format"%string] with
  | None => Some "readable"%string
  | Some x => if existsb (String.eqb x) (["readable"; "shell"]%string ++ (if ft_json f then ["json"; "json-pretty"]%string else [])) then Some x else None
  end.

Definition mark_state (s : string) : option string :=
  if String.eqb s "mark-good" then Some "good"%string else if String.eqb s "mark-bad" then Some "bad"%string else if String.eqb s "mark-active" then Some "active"%string else None.

(** main.c:2201-2318 status_start; OGetStatus: retrieve_status_via_dbus, or the steps 2217-2249 without the service *)
Definition status_start (f : features) (W : oracle) (o : opts) (args : list string) : M :=
  try W OGetStatus (
  match args with
  | [] => match status_format f o with Some fmt => (fun l => (0, l ++ [(OPrintStatus fmt, true)])) | None => fail_usage end
  | sub :: rest =>
      match (match rest with [] => Some "booted"%string | [s] => Some s | _ => None end) with
      | None => fail_usage
      | Some slot => match mark_state sub with Some st => try W (OMark st slot) done | None => fail_usage end
      end
  end).

(** main.c:2497-2541 mount_start *)
Definition mount_start (W : oracle) (e : env) (args : list string) : M :=
  match args with
  | [b] => match e_resolve e b with
           | None => fail_usage
           | Some path => try W (OCheck path false false false false) (try W OMount done)
           end
  | _ => fail_usage
  end.

(** main.c:240-290 install_start up to the start of the installation; from there on C69 *)
Definition install_start (f : features) (W : oracle) (e : env) (o : opts) (args : list string) : M :=
  match args with
  | [b] =>
      guard (negb (ft_service f && flag o "keyring")) (
      match e_resolve e b with
      | None => fail_usage
      | Some path => fun l => (e_install_code e, l ++ [(OInstall path, Nat.eqb (e_install_code e) 0)])
      end)
  | _ => fail_usage
  end.

Definition start (f : features) (W : oracle) (e : env) (o : opts) (c : command) (args : list string) : M :=
  match c with
  | CHelp => done                                            (* unknown_start *)
  | CInstall => install_start f W e o args
  | CBundle => bundle_start W e o args
  | CResign => resign_start W o args
  | CConvert => convert_start W o args
  | CEncrypt => encrypt_start W o args
  | CReplaceSig => replace_start W o args
  | CExtractSig => extract_signature_start W o args
  | CExtract => extract_start W o args
  | CInfo => info_start f W e o args
  | CStatus => status_start f W o args
  | CWriteSlot => write_slot_start W e o args
  | CService => try W OService done
  | CMount => mount_start W e args
  end.

(** main.c:2805-3083 cmdline_handler and the exit code of main (3085-3130) *)
Definition rauc (f : features) (W : oracle) (e : env) (o : opts) (args : list string) : nat * log :=
  match args with
  | [] => (if flag o "version" || flag o "help" then 0 else 1, [])
  | name :: rest =>
      match find (fun c => String.eqb (fst c) name) (commands f) with
      | None => (1, [])
      | Some (_, c) =>
          if negb (forallb (fun x => existsb (String.eqb (fst x)) (main_options ++ options_of f c)) o) then (1, [])
          else if flag o "help" then (0, [])
          else if negb (e_configured e (mode_of f c)) then (1, [])
          else start f W e o c rest []
      end
  end.
