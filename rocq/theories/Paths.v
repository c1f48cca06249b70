(** Model of how paths in the system configuration are understood: src/utils.c:328-356 resolve_path, the places in
    src/config_file.c which use it (333, 350, 516-555, 606-608, 870-872, 894, 916-922, 967, 1165) and, from GLib, g_path_is_absolute,
    g_path_get_dirname, g_build_filename (glib/gfileutils.c; on Unix). *)
From Verif Require Import Base KeyFile Config.
Open Scope list_scope.

(** g_path_is_absolute *)
Definition is_absolute (p : string) : bool := has_prefix "/" p.

(** leading and trailing separators *)
Fixpoint lstrip (s : string) : string := match s with String c r => if Ascii.eqb c "/" then lstrip r else s | EmptyString => "" end.
Fixpoint leading (s : string) : string := match s with String c r => if Ascii.eqb c "/" then String c (leading r) else "" | EmptyString => "" end.
Fixpoint rstrip (s : string) : string :=
  match s with
  | EmptyString => EmptyString
  | String c r => if String.eqb (rstrip r) "" && Ascii.eqb c "/" then EmptyString else String c (rstrip r)
  end.
Fixpoint trailing (s : string) : string :=
  match s with
  | EmptyString => EmptyString
  | String c r => if String.eqb (rstrip r) "" && Ascii.eqb c "/" then String c r else trailing r
  end.

(** what is in front of the last separator *)
Fixpoint before_last (s : string) : string :=
  match s with
  | EmptyString => EmptyString
  | String c r => if has_char "/" r then String c (before_last r) else EmptyString
  end.
(** g_path_get_dirname *)
Definition dirname (f : string) : string :=
  if has_char "/" f then match rstrip (before_last f) with EmptyString => "/" | d => d end else ".".

Definition not_empty (s : string) : bool := negb (String.eqb s "").
(** g_build_path_va with the separator "/": the leading separators of the first and the trailing ones of the last element stay,
    the others become one *)
Definition build_filename (es : list string) : string :=
  match filter not_empty es with
  | [] => ""
  | [e] => e
  | first :: r => leading first ++ join "/" (filter not_empty (map (fun e => rstrip (lstrip e)) (first :: r))) ++ trailing (last r "")
  end%string.

(** utils.c:328-349 resolve_path; [cwd]: g_get_current_dir *)
Definition resolve_path (cwd : string) (basefile : option string) (path : string) : string :=
  if has_prefix "pkcs11:" path then path
  else if is_absolute path then path
  else match basefile with
       | None => build_filename [cwd; path]
       | Some f => let dir := dirname f in
                   if is_absolute dir then build_filename [dir; path] else build_filename [cwd; dir; path]
       end.

(** config_file.c:516-555: data-directory and statusfile as written, to what is used; None: an error *)
Definition status_location (cwd : string) (file : option string) (d s : option string) : option (option string * string) :=
  let d := option_map (resolve_path cwd file) d in
  let s := match s with
           | Some s => s
           | None => match d with Some d => build_filename [d; "central.raucs"] | None => "per-slot" end
           end in
  if String.eqb s "per-slot"
  then match d with Some _ => None | None => Some (None, s) end
  else Some (d, resolve_path cwd file s).

(** the paths rauc uses after it has read the configuration [c] (with the values as written, Config.v) from [file] *)
Record used := mkUsed {
  u_keyring : option string; u_keydir : option string;                       (* :606-608 *)
  u_system_info : option string; u_pre : option string; u_post : option string;  (* :916-922 *)
  u_grubenv : option string;                                                  (* :333-338 *)
  u_backend : option string;                                                  (* :350 *)
  u_devices : list (string * string);                                         (* slot, device; :967 *)
  u_repos : list (string * string);                                           (* repository, path; :1165 *)
  u_mountprefix : string                                                      (* :423: as written *)
}.
Definition use_paths (cwd : string) (file : option string) (c : config) : used :=
  let r := option_map (resolve_path cwd file) in
  let '(si, pre, post) := f_handlers c in
  mkUsed (r (k_path (f_keyring c))) (r (k_directory (f_keyring c))) (r si) (r pre) (r post)
    (r (y_grubenv (f_system c))) (r (y_custom_backend (f_system c)))
    (map (fun s => (c_name s, resolve_path cwd file (c_device s))) (f_slots c))
    (map (fun p => (p_name p, resolve_path cwd file (p_path p))) (f_repos c))
    (y_mountprefix (f_system c)).
