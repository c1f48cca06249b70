(** Model of the HTTP requests of streaming and polling: which settings and headers they carry (src/bundle.c:2330-2350,
    3259-3342, src/nbd.c:380-645, 1063-1192) and what a poll stores (src/polling.c:47-54, 97-147).

    Simplifications: the dictionaries sent over the socket arrive as they are (the socket never fails); libcurl does
    what its options say; all strings are valid UTF-8; curl_getdate is a parameter (None: not a date, or before 1970); the messages are left out. *)
From Verif Require Import Base KeyFile EnvKey Nbd NbdConfig.
Open Scope list_scope.

(** ** the information headers *)

(** what the context knows (include/context.h) and the configuration enables *)
Record sysctx := mkSysctx {
  sx_enabled : option (list string);       (* send-headers *)
  sx_boot_id : option string;
  sx_machine_id : option string;
  sx_version : option string;
  sx_serial : option string;
  sx_variant : option string;
  sx_info : list (string * string)         (* the variables of the system-info handler *)
}.

(** bundle.c:3259-3275 get_uptime for the contents of /proc/uptime (None: unreadable) *)
Definition get_uptime (contents : option string) : option string :=
  match contents with
  | None => None
  | Some c => match g_strsplit_max " " 2 (chomp c) with
              | u :: _ => Some u
              | [] => None                 (* g_strdup (NULL) *)
              end
  end.

(** printf of a string which may be NULL *)
Definition or_null (o : option string) : string := match o with Some s => s | None => "(null)" end.

Fixpoint underscores (s : string) : string :=
  match s with
  | EmptyString => EmptyString
  | String c r => String (if Ascii.eqb c "_" then "-"%char else c) (underscores r)
  end.

(** bundle.c:3277-3296 system_info_to_header *)
Definition info_to_header (kv : string * string) : option string :=
  let '(key, value) := kv in
  if has_prefix "RAUC_HTTP_" key
  then Some ("RAUC-" ++ underscores (sdrop (String.length "RAUC_HTTP_") key) ++ ": " ++ value)%string
  else None.

Definition line_if (enabled is : string) (label : string) (v : option string) : list string :=
  if String.eqb enabled is then match v with Some v => [(label ++ ": " ++ v)%string] | None => [] end else [].

(** bundle.c:3298-3342 assemble_info_headers *)
Definition assemble (sx : sysctx) (uptime_file : option string) (transaction : option string) : list string :=
  (match sx_enabled sx with
   | None => []
   | Some hs =>
       flat_map (fun h : string =>
         line_if h "boot-id" "RAUC-Boot-ID" (sx_boot_id sx) ++
         line_if h "machine-id" "RAUC-Machine-ID" (sx_machine_id sx) ++
         line_if h "system-version" "RAUC-System-Version" (sx_version sx) ++
         line_if h "serial" "RAUC-Serial" (sx_serial sx) ++
         line_if h "variant" "RAUC-Variant" (sx_variant sx) ++
         line_if h "transaction-id" "RAUC-Transaction-ID" transaction ++
         line_if h "uptime" "RAUC-Uptime" (Some (or_null (get_uptime uptime_file)))) hs
   end) ++
  flat_map (fun kv => match info_to_header kv with Some h => [h] | None => [] end) (sx_info sx).

(** ** from the arguments to the requests *)

(** include/bundle.h RaucBundleAccessArgs *)
Record access := mkAccess {
  ac_cert : option string;
  ac_key : option string;
  ac_ca : option string;
  ac_no_verify : bool;
  ac_headers : option (list string);
  ac_info : option (list string)
}.

(** [streaming] tls-cert, tls-key, tls-ca *)
Record tlsconf := mkTlsconf { tc_cert : option string; tc_key : option string; tc_ca : option string }.

(** include/nbd.h RaucNBDServer *)
Record nbdsrv := mkNbdsrv {
  ns_url : string;
  ns_cert : option string;
  ns_key : option string;
  ns_ca : option string;
  ns_no_verify : bool;
  ns_headers : option (list string);
  ns_info : option (list string)
}.

Definition fallback {A} (o d : option A) : option A := match o with Some _ => o | None => d end.

(** bundle.c:2330-2346 *)
Definition make_srv (url : string) (args : option access) (conf : tlsconf) : nbdsrv :=
  let a := match args with Some a => a | None => mkAccess None None None false None None end in
  mkNbdsrv url (fallback (ac_cert a) (tc_cert conf)) (fallback (ac_key a) (tc_key conf)) (fallback (ac_ca a) (tc_ca conf))
    (ac_no_verify a) (ac_headers a) (ac_info a).

Inductive hvalue := HS (s : string) | HB (b : bool) | HV (l : list string).

Definition entry (k : string) (v : option hvalue) : list (string * hvalue) := match v with Some v => [(k, v)] | None => [] end.

(** nbd.c:1076-1092: the configuration sent to the server process *)
Definition config_dict (s : nbdsrv) : list (string * hvalue) :=
  entry "url" (Some (HS (ns_url s))) ++ entry "cert" (option_map HS (ns_cert s)) ++ entry "key" (option_map HS (ns_key s)) ++
  entry "ca" (option_map HS (ns_ca s)) ++ entry "no-verify" (if ns_no_verify s then Some (HB true) else None) ++
  entry "headers" (option_map HV (ns_headers s)) ++ entry "info-headers" (option_map HV (ns_info s)).

(** nbd.c:338-365 RaucNBDContext; an empty curl_slist is NULL *)
Record nctx := mkNctx {
  nc_url : string;
  nc_cert : option string;
  nc_key : option string;
  nc_ca : option string;
  nc_no_verify : bool;
  nc_headers : list string;
  nc_initial : list string
}.

Definition look_s (k : string) (d : list (string * hvalue)) : option string := match assoc k d with Some (HS s) => Some s | _ => None end.
Definition look_b (k : string) (d : list (string * hvalue)) : bool := match assoc k d with Some (HB b) => b | _ => false end.
Definition look_v (k : string) (d : list (string * hvalue)) : list string := match assoc k d with Some (HV l) => l | _ => [] end.

(** nbd.c:601-646: the first part of start_configure; Abort: g_assert_nonnull *)
Definition read_config (d : list (string * hvalue)) : res nctx :=
  match look_s "url" d with
  | None => Abort
  | Some url =>
      let headers := look_v "headers" d in
      let info := look_v "info-headers" d in
      Ok (mkNctx url (look_s "cert" d) (look_s "key" d) (look_s "ca" d) (look_b "no-verify" d) headers (headers ++ info))
  end.

Inductive keytype := KeyFileKey | KeyProvider.

(** a request as libcurl is told to make it *)
Record request := mkRequest {
  q_url : string;
  q_cert : option string;
  q_key : option (keytype * string);
  q_ca : option string;                    (* None: the default of libcurl *)
  q_verify_peer : bool;
  q_headers : list string;
  q_range : string;
  q_agent : bool                           (* a User-Agent with the version of RAUC *)
}.

(** nbd.c:450-513 prepare_curl *)
Definition prepare (c : nctx) (headers : list string) (range : string) (agent : bool) : request :=
  mkRequest (nc_url c) (nc_cert c)
    (match nc_key c with Some k => Some (if has_prefix "pkcs11:" k then KeyProvider else KeyFileKey, k) | None => None end)
    (nc_ca c) (negb (nc_no_verify c)) headers range agent.

(** nbd.c:648-668: the request of start_configure *)
Definition configure_request (c : nctx) : request :=
  prepare c (match nc_initial c with [] => nc_headers c | l => l end) "0-3" true.

(** nbd.c:552-575 start_read; the addition is one of guint64 *)
Definition read_request (c : nctx) (from len : N) : request :=
  prepare c (nc_headers c) (print_num 10 from ++ "-" ++ print_num 10 ((from + len + 2 ^ 64 - 1) mod 2 ^ 64))%string false.

(** ** the answer to the configure request *)

(** the part of RaucNBDTransfer which header_cb fills in *)
Record hinfo := mkHinfo { hi_size : N; hi_current : N; hi_modified : N; hi_etag : option string }.
Definition hinfo0 : hinfo := mkHinfo 0 0 0 None.

(** nbd.c:380-448 header_cb; None: the callback refuses the header *)
Definition header_full (getdate : string -> option N) (x : hinfo) (h : string) : option hinfo :=
  match split_header (chomp h) with
  | None => Some x
  | Some (name, v) =>
      let name := strdown name in
      if String.eqb name "content-range"
      then match content_range v with Some n => Some (mkHinfo n (hi_current x) (hi_modified x) (hi_etag x)) | None => None end
      else if String.eqb name "date"
      then match getdate v with Some t => Some (mkHinfo (hi_size x) t (hi_modified x) (hi_etag x)) | None => Some x end
      else if String.eqb name "last-modified"
      then match getdate v with Some t => Some (mkHinfo (hi_size x) (hi_current x) t (hi_etag x)) | None => Some x end
      else if String.eqb name "etag"
      then Some (mkHinfo (hi_size x) (hi_current x) (hi_modified x) (Some v))
      else Some x
  end.

Fixpoint headers_full (getdate : string -> option N) (x : hinfo) (hs : list string) : hinfo * bool :=
  match hs with
  | [] => (x, true)
  | h :: r => match header_full getdate x h with Some x' => headers_full getdate x' r | None => (x, false) end
  end.

(** one attempt: NbdConfig.cfgres and CURLINFO_EFFECTIVE_URL *)
Record attempt := mkAttempt { at_res : cfgres; at_url : string }.

(** nbd.c:749-849: the complete reply dictionary *)
Record freply := mkFreply {
  fr_reply : cfgreply;                     (* error, error-http-code, size *)
  fr_url : string;
  fr_current : option N;
  fr_modified : option N;
  fr_etag : option string
}.

Definition nonzero (n : N) : option N := if (n =? 0)%N then None else Some n.

(** nbd.c:749-849 finish_configure *)
Definition finish_full (url : string) (a : attempt) (buf : string) (err : bool) (x : hinfo) : freply :=
  let r := finish_configure (g_http (at_res a)) buf err (hi_size x) in
  mkFreply r (if cr_error r then url else at_url a) (nonzero (hi_current x)) (nonzero (hi_modified x)) (hi_etag x).

(** the loop nbd.c:975-1018 for the configure request (see NbdConfig.configure_loop): the reply and the number of
    requests made; the transfer keeps what earlier attempts set *)
Fixpoint configure_full (getdate : string -> option N) (url : string) (errors : nat) (x : hinfo) (rs : list attempt) (made : nat) : option (freply * nat) :=
  match rs with
  | [] => None
  | a :: rs' =>
      let c := at_res a in
      let '(x', hok) := headers_full getdate x (g_headers c) in
      let '(buf, bok) := if hok then write_chunks 4 "" (g_chunks c) else (""%string, true) in
      if g_ok c && hok && bok then Some (finish_full url a buf false x', S made)
      else if (g_http c =? 404)%N then Some (finish_full url a buf true x', S made)
      else if Nat.leb 5 errors then Some (finish_full url a buf true x', S made)
      else configure_full getdate url (S errors) x' rs' (S made)
  end.

Record streamed := mkStreamed {
  sm_size : N;
  sm_url : string;
  sm_current : N;
  sm_modified : N;
  sm_etag : option string
}.
Inductive strout := StrOk (s : streamed) | StrErr (e : cfgerr).

Definition or_zero (o : option N) : N := match o with Some n => n | None => 0%N end.

(** nbd.c:1136-1192: the rest of nbd_configure *)
Definition client_result (r : freply) : strout :=
  if cr_error (fr_reply r) then
    let code := or_zero (cr_code (fr_reply r)) in
    StrErr (if (code =? 204)%N then NoContent
            else if (code =? 304)%N then NotModified
            else if (code =? 401)%N then Unauthorized
            else if (code =? 404)%N then NotFound
            else ConfigFailed)
  else match cr_size (fr_reply r) with
       | Some n => StrOk (mkStreamed n (fr_url r) (or_zero (fr_current r)) (or_zero (fr_modified r)) (fr_etag r))
       | None => StrErr ConfigFailed
       end.

(** nbd.c:1063-1192 nbd_configure (through r_nbd_start_server, bundle.c:2347) together with the requests it leads to;
    None: more answers are needed *)
Definition stream_start (getdate : string -> option N) (s : nbdsrv) (rs : list attempt) : option (list request * strout * nctx) :=
  match read_config (config_dict s) with
  | Ok c =>
      match configure_full getdate (nc_url c) 0 hinfo0 rs 0 with
      | None => None
      | Some (r, n) =>
          Some (repeat (configure_request c) n, client_result r,
                mkNctx (fr_url r) (nc_cert c) (nc_key c) (nc_ca c) (nc_no_verify c) (nc_headers c) (nc_initial c))
      end
  | _ => None
  end.

(** all requests of a streamed bundle; [reads]: the reads the kernel asked for, with their retries (nbd.c:975-1018).
    After a failed configuration the server exits (nbd.c:1000-1008) *)
Definition stream_requests (getdate : string -> option N) (s : nbdsrv) (rs : list attempt) (reads : list (N * N)) : list request :=
  match stream_start getdate s rs with
  | Some (qs, StrOk _, c) => qs ++ map (fun r => read_request c (fst r) (snd r)) reads
  | Some (qs, StrErr _, _) => qs
  | None => []
  end.

(** ** polling *)

(** polling.c:17-40: the part of RPollingContext about the bundle *)
Record pollst := mkPollst {
  ps_manifest : option string;
  ps_size : N;
  ps_modified : N;
  ps_url : option string;
  ps_etag : option string
}.
Definition pollst0 : pollst := mkPollst None 0 0 None None.

(** polling.c:47-54 polling_context_clear_manifest *)
Definition clear_manifest (p : pollst) : pollst := mkPollst None (ps_size p) (ps_modified p) None None.

(** polling.c:104-110: the arguments of check_bundle *)
Definition poll_access (info : list string) (p : pollst) : access :=
  mkAccess None None None false None
    (Some (info ++ match ps_etag p with Some e => [("If-None-Match: " ++ e)%string] | None => [] end)).

(** what check_bundle finds behind a configured stream: an error, no manifest, a manifest *)
Inductive opened := OpenFailed | OpenNoManifest | OpenManifest (m : string).

Definition poll_start (getdate : string -> option N) (conf : tlsconf) (url : string) (info : list string) (p : pollst) (rs : list attempt) :=
  stream_start getdate (make_srv url (Some (poll_access info p)) conf) rs.

(** polling.c:97-147 polling_fetch; true: no error. None: more answers are needed *)
Definition poll_fetch (getdate : string -> option N) (conf : tlsconf) (url : string) (info : list string) (p : pollst) (rs : list attempt) (o : opened)
  : option (pollst * bool) :=
  match poll_start getdate conf url info p rs with
  | None => None
  | Some (_, StrErr NoContent, _) => Some (clear_manifest p, true)
  | Some (_, StrErr NotModified, _) => Some (p, true)
  | Some (_, StrErr _, _) => Some (p, false)
  | Some (_, StrOk s, _) =>
      match o with
      | OpenFailed | OpenNoManifest => Some (p, false)
      | OpenManifest m => Some (mkPollst (Some m) (sm_size s) (sm_modified s) (Some (sm_url s)) (sm_etag s), true)
      end
  end.
