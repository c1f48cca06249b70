(** Model of "rauc install" as a client of the service: src/main.c:90-232 (client call-backs, bundle path), :240-395
    install_start, src/service.c:35-163 (InstallBundle, Install, completion), and of the reply of InspectBundle:
    src/manifest.c:1136-1265 r_manifest_to_dict. *)
From Verif Require Import Base KeyFile Image Manifest.

(** ** The options *)

(** values in an a{sv}: boolean, string, array of strings, anything else *)
Inductive val := VB (b : bool) | VS (s : string) | VAS (l : list string) | VOther (t : string).
(** include/install.h:34-39, include/bundle.h RaucBundleAccessArgs: what can be asked for *)
Record iargs := mkIargs {
  a_ignore_compatible : bool; a_ignore_version_limit : bool; a_transaction : option string; a_manifest_hash : option string;
  a_tls_cert : option string; a_tls_key : option string; a_tls_ca : option string; a_tls_no_verify : bool; a_http_headers : option (list string)
}.
(** install_args_new: all zero *)
Definition iargs0 : iargs := mkIargs false false None None None None None false None.

(** main.c:304-319 the dictionary the client sends *)
Definition opt_s (k : string) (v : option string) : list (string * val) := match v with Some s => [(k, VS s)] | None => [] end.
Definition client_dict (a : iargs) : list (string * val) :=
  [("ignore-compatible", VB (a_ignore_compatible a)); ("ignore-version-limit", VB (a_ignore_version_limit a))]%string
  ++ opt_s "transaction-id" (a_transaction a) ++ opt_s "require-manifest-hash" (a_manifest_hash a)
  ++ opt_s "tls-cert" (a_tls_cert a) ++ opt_s "tls-key" (a_tls_key a) ++ opt_s "tls-ca" (a_tls_ca a)
  ++ (if a_tls_no_verify a then [("tls-no-verify"%string, VB true)] else [])
  ++ match a_http_headers a with Some l => [("http-headers"%string, VAS l)] | None => [] end.

(** g_variant_dict_init: a later entry with the same key replaces the earlier one *)
Definition dict_of (l : list (string * val)) : list (string * val) := fold_left (fun d (kv : string * val) => assoc_set (fst kv) (snd kv) d) l [].
(** if (g_variant_dict_lookup (dict, k, type, &x)) g_variant_dict_remove (dict, k): [x] and the dictionary afterwards *)
Definition take_b (k : string) (x : bool) (d : list (string * val)) : bool * list (string * val) :=
  match assoc k d with Some (VB b) => (b, assoc_remove k d) | _ => (x, d) end.
Definition take_s (k : string) (x : option string) (d : list (string * val)) : option string * list (string * val) :=
  match assoc k d with Some (VS s) => (Some s, assoc_remove k d) | _ => (x, d) end.
Definition take_as (k : string) (x : option (list string)) (d : list (string * val)) : option (list string) * list (string * val) :=
  match assoc k d with Some (VAS l) => (Some l, assoc_remove k d) | _ => (x, d) end.

(** service.c:64-81 convert_dict_to_bundle_access_args *)
Definition access_of (a : iargs) (d : list (string * val)) : iargs * list (string * val) :=
  let (cert, d) := take_s "tls-cert" (a_tls_cert a) d in
  let (key, d) := take_s "tls-key" (a_tls_key a) d in
  let (ca, d) := take_s "tls-ca" (a_tls_ca a) d in
  let (nv, d) := take_b "tls-no-verify" (a_tls_no_verify a) d in
  let (hh, d) := take_as "http-headers" (a_http_headers a) d in
  (mkIargs (a_ignore_compatible a) (a_ignore_version_limit a) (a_transaction a) (a_manifest_hash a) cert key ca nv hh, d).
(** service.c:110-133: what the service makes of the dictionary; Err: "Unsupported key" *)
Definition service_args (l : list (string * val)) : res iargs :=
  let d := dict_of l in
  let (ic, d) := take_b "ignore-compatible" false d in
  let (iv, d) := take_b "ignore-version-limit" false d in
  let (tx, d) := take_s "transaction-id" None d in
  let (mh, d) := take_s "require-manifest-hash" None d in
  let (a, d) := access_of (mkIargs ic iv tx mh None None None false None) d in
  match d with [] => Ok a | _ => Err end.
(** service.c:188-198 the same for InspectBundle *)
Definition inspect_args (l : list (string * val)) : res iargs :=
  let (a, d) := access_of iargs0 (dict_of l) in match d with [] => Ok a | _ => Err end.

(** ** The name of the bundle: main.c:169-213 resolve_bundle_path *)

Definition is_alpha (c : ascii) : bool := let n := N_of_ascii c in ((65 <=? n) && (n <=? 90) || (97 <=? n) && (n <=? 122))%N%bool.
Definition scheme_char (c : ascii) : bool :=
  is_alpha c || (let n := N_of_ascii c in (48 <=? n) && (n <=? 57))%N%bool || Ascii.eqb c "." || Ascii.eqb c "+" || Ascii.eqb c "-".
(** GLib g_uri_parse_scheme: a letter, then letters, digits, '.', '+', '-', then ':' *)
Fixpoint scheme_rest (s : string) : option string :=
  match s with
  | EmptyString => None
  | String c r => if Ascii.eqb c ":" then Some EmptyString
                  else if scheme_char c then option_map (String c) (scheme_rest r) else None
  end.
Definition parse_scheme (s : string) : option string :=
  match s with String c r => if is_alpha c then option_map (String c) (scheme_rest r) else None | EmptyString => None end.
Definition is_absolute (s : string) : bool := match s with String c _ => Ascii.eqb c "/" | EmptyString => false end.
(** [cwd]: g_get_current_dir; [from_uri]: g_filename_from_uri (path and host name); [exists_]: g_file_test *)
Definition resolve_bundle (cwd : string) (from_uri : string -> option (string * option string)) (exists_ : string -> bool) (path : string) : res string :=
  let local p := if exists_ p then Ok p else Err in
  match parse_scheme path with
  | None => local (if is_absolute path then path else if String.eqb cwd "/" then String "/" path else (cwd ++ "/" ++ path)%string)
  | Some sch =>
      if String.eqb sch "file" then
        match from_uri path with
        | None => Err
        | Some (_, Some _) => Err
        | Some (p, None) => local p
        end
      else Ok path
  end.

(** ** Client, bus and service *)

(** What the client's main loop dispatches.  [owner] of a Completed signal is not part of the signal; it is kept to be
    able to say whose installation it was. *)
Inductive event := EvChanged | EvInvalidated | EvCompleted (owner : nat) (result : Z) | EvSigint.
(** main.c:113-167, 218-232: status_result and whether g_main_loop_quit was called *)
Definition on_event (x : Z * bool) (e : event) : Z * bool :=
  match e with
  | EvChanged => x
  | EvInvalidated => (2%Z, true)
  | EvCompleted _ r => (r, snd x || (0 <=? r)%Z)
  | EvSigint => (3%Z, true)
  end.
(** one iteration of the main loop dispatches everything that is ready, also after g_main_loop_quit *)
Definition on_batch (r : Z) (l : list event) : Z * bool := fold_left on_event l (r, false).

(** A client: connected with its call-backs (main.c:328-337), waiting in the main loop (:366), or ended with an exit code *)
Inductive cstate := CNone | CConnected (q : list event) | CWaiting (status : Z) (q : list event) | CDone (code : Z).
Record world := mkWorld {
  w_clients : nat -> cstate;
  w_busy : option nat;                      (* r_context_get_busy: whose installation *)
  w_used : nat -> option iargs;             (* what install_run was called with *)
  w_results : nat -> option Z               (* how it ended *)
}.
Definition world0 : world := mkWorld (fun _ => CNone) None (fun _ => None) (fun _ => None).

Definition upd_nat {A} (f : nat -> A) (i : nat) (v : A) : nat -> A := fun j => if Nat.eqb j i then v else f j.
(** a signal is queued for every client which listens *)
Definition enqueue (e : event) (c : cstate) : cstate :=
  match c with CConnected q => CConnected (q ++ [e]) | CWaiting s q => CWaiting s (q ++ [e]) | _ => c end.
Definition broadcast (e : event) (f : nat -> cstate) : nat -> cstate := fun j => enqueue e (f j).

Inductive step :=
| SConnect (i : nat)                        (* the client connects to the signals *)
| SCall (i : nat) (d : list (string * val)) (* its InstallBundle call with this dictionary arrives at the service and returns *)
| SChanged                                  (* the service changes properties *)
| SFinish (result : Z)                      (* the installation ends, Completed is emitted *)
| SLost (i : nat)                           (* the service disappears from the bus, as seen by [i] *)
| SSigint (i : nat)
| SDispatch (i : nat) (n : nat).            (* the main loop of [i] dispatches the first [n] queued events *)

Definition set_client (w : world) (i : nat) (c : cstate) : world := mkWorld (upd_nat (w_clients w) i c) (w_busy w) (w_used w) (w_results w).
Definition do_step (w : world) (s : step) : option world :=
  match s with
  | SConnect i => match w_clients w i with CNone => Some (set_client w i (CConnected [])) | _ => None end
  | SCall i d =>
      match w_clients w i with
      | CConnected q =>
          (* service.c:98-163; main.c:340-351: status_result is still 2 after a refusal *)
          match w_busy w, service_args d with
          | None, Ok a => Some (mkWorld (upd_nat (w_clients w) i (CWaiting 2 q)) (Some i) (upd_nat (w_used w) i (Some a)) (w_results w))
          | _, _ => Some (set_client w i (CDone 2))
          end
      | _ => None
      end
  | SChanged => Some (mkWorld (broadcast EvChanged (w_clients w)) (w_busy w) (w_used w) (w_results w))
  | SFinish r =>
      (* install.c:1712-1718 result = !do_install_bundle; service.c:41-56 *)
      match w_busy w with
      | Some i => if (Z.eqb r 0 || Z.eqb r 1)%bool then
          Some (mkWorld (broadcast (EvCompleted i r) (w_clients w)) None (w_used w) (upd_nat (w_results w) i (Some r))) else None
      | None => None
      end
  | SLost i => match w_clients w i with CConnected _ | CWaiting _ _ => Some (set_client w i (enqueue EvInvalidated (w_clients w i))) | _ => None end
  | SSigint i => match w_clients w i with CConnected _ | CWaiting _ _ => Some (set_client w i (enqueue EvSigint (w_clients w i))) | _ => None end
  | SDispatch i n =>
      match w_clients w i with
      | CWaiting st q =>
          let (st', quit) := on_batch st (firstn n q) in
          Some (set_client w i (if quit then CDone st' else CWaiting st' (skipn n q)))
      | _ => None
      end
  end.
Fixpoint exec (l : list step) (w : world) : option world :=
  match l with [] => Some w | s :: r => match do_step w s with Some w' => exec r w' | None => None end end.

(** ** InspectBundle: manifest.c:1136-1265 *)
Inductive gv := GS (s : string) | GT (n : N) | GL (l : list string) | GD (d : list (string * gv)) | GA (l : list gv).
Definition gopt (k : string) (v : option string) : list (string * gv) := match v with Some s => [(k, GS s)] | None => [] end.
Definition fmt_str (f : bformat) : string := match f with F_PLAIN => "plain" | F_VERITY => "verity" | F_CRYPT => "crypt" end.
Definition flags_of (l : list (bool * string)) : list string := flat_map (fun bw : bool * string => if fst bw then [snd bw] else []) l.
Definition gstrv (k : string) (l : list string) : list (string * gv) := match l with [] => [] | _ => [(k, GL l)] end.
(** :1201-1236; Simplification: NULL and empty string arrays are both [] (and left out); goffset to guint64 *)
Definition image_dict (i : image) : gv :=
  GD ([("slot-class"%string, GS (im_class i))] ++ gopt "artifact" (im_artifact i) ++ gopt "variant" (im_variant i) ++ gopt "filename" (im_filename i)
      ++ gopt "type" (im_type i) ++ gopt "checksum" (im_digest i) ++ (if Z.eqb (im_size i) 0 then [] else [("size"%string, GT (Z.to_N (im_size i mod 2 ^ 64)))])
      ++ [("hooks"%string, GL (flags_of [(im_pre i, "pre-install"); (im_install i, "install"); (im_post i, "post-install")]%string))]
      ++ gstrv "adaptive" (im_adaptive i) ++ gstrv "convert" (im_convert i) ++ gstrv "converted" (im_converted i)).
Definition manifest_dict (m : manifest) (hash : option string) : list (string * gv) :=
  gopt "manifest-hash" hash
  ++ [("update"%string, GD (gopt "compatible" (mf_compatible m) ++ gopt "version" (mf_version m) ++ gopt "description" (mf_description m) ++ gopt "build" (mf_build m)));
      ("bundle"%string, GD ([("format"%string, GS (fmt_str (mf_format m)))] ++ gopt "verity-hash" (mf_verity_hash m) ++ gopt "verity-salt" (mf_verity_salt m)
                     ++ (if N.eqb (mf_verity_size m) 0 then [] else [("verity-size"%string, GT (mf_verity_size m))])))]
  ++ match mf_hook m with
     | Some h => [("hooks"%string, GD [("filename"%string, GS h); ("hooks"%string, GL (flags_of [(mf_install_check m, "install-check"%string)]))])]
     | None => []
     end
  ++ match mf_handler m with Some h => [("handler"%string, GD ([("filename"%string, GS h)] ++ gopt "args" (mf_handler_args m)))] | None => [] end
  ++ [("images"%string, GA (map image_dict (mf_images m)));
      ("meta"%string, GD (map (fun g : string * list (string * string) => (fst g, GD (map (fun kv : string * string => (fst kv, GS (snd kv))) (snd g)))) (mf_meta m)))].
