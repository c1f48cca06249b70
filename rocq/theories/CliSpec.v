(** Vocabulary for C71. *)
From Verif Require Import Base Handlers Cli.
Open Scope list_scope.

Definition given (o : opts) (n : string) : Prop := exists v, In (n, v) o.
(** the switch [n] is on *)
Definition says (o : opts) (n : string) (b : bool) : Prop := b = true <-> given o n.
(** the last value given for one of these options *)
Definition last_value (o : opts) (ns : list string) (v : string) : Prop :=
  exists before n after, o = before ++ (n, v) :: after /\ In n ns /\ forall n' v', In (n', v') after -> ~ In n' ns.
Definition not_given (o : opts) (ns : list string) : Prop := forall n v, In (n, v) o -> ~ In n ns.
(** [l] are the values given for option [n], in order *)
Inductive all_values (n : string) : opts -> list string -> Prop :=
| all_nil : all_values n [] []
| all_this : forall v o l, all_values n o l -> all_values n ((n, v) :: o) (v :: l)
| all_other : forall n' v o l, n' <> n -> all_values n o l -> all_values n ((n', v) :: o) l.

(** output formats *)
Definition format_of (known : list string) (o : opts) (fmt : string) : Prop :=
  not_given o ["output-format"%string] /\ fmt = "readable"%string \/ last_value o ["output-format"%string] fmt /\ In fmt known.
Definition info_formats (f : features) : list string := (if ft_json f then ["json"; "json-pretty"; "json-2"] else [])%string ++ ["readable"; "shell"]%string.
Definition status_formats (f : features) : list string := (if ft_json f then ["json"; "json-pretty"] else [])%string ++ ["readable"; "shell"]%string.

Definition marks : list (string * string) := [("mark-good", "good"); ("mark-bad", "bad"); ("mark-active", "active")]%string.

(** what each command asks for (rauc(1)): the operations, in order *)
Inductive asks (f : features) (e : env) (o : opts) : command -> list string -> list op -> Prop :=
| asks_install : forall b path, ~ (ft_service f = true /\ given o "keyring") -> e_resolve e b = Some path -> asks f e o CInstall [b] [OInstall path]
| asks_bundle : forall content out, given o "cert" -> given o "key" -> e_is_dir e (resolve_path (e_cwd e) content) = true ->
    outside_check (e_cwd e) content out = true -> asks f e o CBundle [content; out] [OCreate out content]
| asks_resign : forall i out nv nt ap, given o "cert" -> given o "key" -> says o "no-verify" nv -> says o "no-check-time" nt -> says o "append" ap ->
    asks f e o CResign [i; out] [OCheck i nv nt false false; OResign out ap]
| asks_replace : forall i sg out nv te, says o "no-verify" nv -> says o "trust-environment" te ->
    asks f e o CReplaceSig [i; sg; out] [OCheck i nv false te false; OReplace sg out]
| asks_extract_sig : forall i out te, says o "trust-environment" te -> asks f e o CExtractSig [i; out] [OCheck i false false te false; OExtractSig out]
| asks_extract : forall i out te, says o "trust-environment" te -> asks f e o CExtract [i; out] [OCheck i false false te false; OExtract (strip_slash out)]
| asks_convert : forall i out nv te ig, given o "cert" -> given o "key" -> says o "no-verify" nv -> says o "trust-environment" te -> all_values "ignore-image" o ig ->
    asks f e o CConvert [i; out] [OCheck i nv false te false; OConvert out ig]
| asks_encrypt : forall i out, given o "to" -> asks f e o CEncrypt [i; out] [OCheck i false false false false; OEncrypt out]
| asks_info : forall b path nv nt fmt, e_resolve e b = Some path -> says o "no-verify" nv -> says o "no-check-time" nt -> format_of (info_formats f) o fmt -> e_has_manifest e = true ->
    asks f e o CInfo [b] [OCheck path nv nt false true; OShow fmt]
| asks_info_load : forall b path nv nt fmt, e_resolve e b = Some path -> says o "no-verify" nv -> says o "no-check-time" nt -> format_of (info_formats f) o fmt -> e_has_manifest e = false ->
    asks f e o CInfo [b] [OCheck path nv nt false true; OLoadManifest; OShow fmt]
| asks_status : forall fmt, format_of (status_formats f) o fmt -> asks f e o CStatus [] [OGetStatus; OPrintStatus fmt]
| asks_mark_booted : forall sub st, In (sub, st) marks -> asks f e o CStatus [sub] [OGetStatus; OMark st "booted"]
| asks_mark : forall sub st slot, In (sub, st) marks -> asks f e o CStatus [sub; slot] [OGetStatus; OMark st slot]
| asks_write : forall slot image ty, e_readable e image = true ->
    (last_value o ["image-type"; "image-type-compat"]%string ty \/ not_given o ["image-type"; "image-type-compat"]%string /\ derive_image_type image = Some ty) ->
    is_image_type_supported ty = true -> (exists before after, e_slots e = before ++ (slot, false) :: after /\ forall r, ~ In (slot, r) before) ->
    e_handler e slot ty = true -> asks f e o CWriteSlot [slot; image] [OWrite slot image ty]
| asks_service : forall args, asks f e o CService args [OService]
| asks_mount : forall b path, e_resolve e b = Some path -> asks f e o CMount [b] [OCheck path false false false false; OMount].

(** which commands need a system configuration: the ones that work on the system need it; with a service, install and status
    leave that to it; info and extract can use one (for the keyring); the others do not look at it *)
Definition configuration_for (f : features) (name : string) : cmode :=
  if existsb (String.eqb name) ["write-slot"; "mount"; "service"]%string then ModeRequired
  else if existsb (String.eqb name) ["install"; "status"]%string then (if ft_service f then ModeNone else ModeRequired)
  else if existsb (String.eqb name) ["info"; "extract"]%string then ModeAuto
  else ModeNone.

(** the call gets as far as the command [c] *)
Definition reaches (f : features) (e : env) (o : opts) (name : string) (c : command) : Prop :=
  In (name, c) (commands f) /\ (forall n v, In (n, v) o -> In n (main_options ++ options_of f c)) /\ ~ given o "help" /\ e_configured e (configuration_for f name) = true.

Definition ran (ops : list op) : log := map (fun x => (x, true)) ops.
(** the operations [ops] were asked for: either all of them are done, in order, and the exit code is 0; or they are done
    up to one which fails, none after it, and the exit code is not 0 (that of the installation for rauc install, else 1) *)
Definition outcome (ops : list op) (e : env) (r : nat * log) : Prop :=
  snd r = ran ops /\ fst r = 0 \/
  exists before x after, ops = before ++ x :: after /\ snd r = ran before ++ [(x, false)] /\ fst r <> 0 /\
    (fst r = 1 \/ fst r = e_install_code e /\ exists p, x = OInstall p).
(** refused: exit code 1, and nothing was done (rauc status queries the status before it looks at its arguments) *)
Definition usage (r : nat * log) : Prop := fst r = 1 /\ (snd r = [] \/ exists b, snd r = [(OGetStatus, b)]).

(** operations which only look *)
Definition looks (o : op) : Prop :=
  match o with OCheck _ _ _ _ _ | OLoadManifest | OShow _ | OGetStatus | OPrintStatus _ => True | _ => False end.
(** operations on a bundle which was opened before *)
Definition needs_bundle (o : op) : Prop :=
  match o with OResign _ _ | OReplace _ _ | OExtractSig _ | OExtract _ | OConvert _ _ | OEncrypt _ | OLoadManifest | OShow _ | OMount => True | _ => False end.

(** ** paths *)
Definition component (s : string) : Prop := s <> ""%string /\ s <> "."%string /\ s <> ".."%string /\ no_char "/" s = true.
(** a normalised absolute path *)
Definition abs_path (cs : list string) : string := ("/" ++ join "/" cs)%string.
(** the directory a path with "." and ".." leads to (no symbolic links) *)
Fixpoint walk (cs : list string) (at_ : list string) : list string :=
  match cs with
  | [] => at_
  | c :: r => walk r (if String.eqb c "" || String.eqb c "." then at_ else if String.eqb c ".." then removelast at_ else at_ ++ [c])
  end.
Definition location (path : string) : list string := walk (split_on "/" path) [].
