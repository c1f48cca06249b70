(** Vocabulary for C70. *)
From Verif Require Import Base KeyFile EnvKey Nbd NbdConfig NbdConfigSpec Http.
Open Scope list_scope.

(** the headers which can be enabled: name in the configuration, name of the header, value if it is known *)
Definition known (sx : sysctx) (uptime : string) (transaction : option string) : list (string * string * option string) :=
  [("boot-id", "RAUC-Boot-ID", sx_boot_id sx); ("machine-id", "RAUC-Machine-ID", sx_machine_id sx);
   ("system-version", "RAUC-System-Version", sx_version sx); ("serial", "RAUC-Serial", sx_serial sx);
   ("variant", "RAUC-Variant", sx_variant sx); ("transaction-id", "RAUC-Transaction-ID", transaction);
   ("uptime", "RAUC-Uptime", Some uptime)]%string.

(** [b] is [a] with '-' in place of '_' *)
Inductive dashed : string -> string -> Prop :=
| dashed_nil : dashed "" ""
| dashed_underscore : forall a b, dashed a b -> dashed (String "_" a) (String "-" b)
| dashed_other : forall c a b, c <> "_"%char -> dashed a b -> dashed (String c a) (String c b).

(** /proc/uptime: the uptime, the idle time, a newline *)
Definition uptime_of (contents : option string) (value : string) : Prop :=
  no_char " " value = true /\ exists idle, idle <> ""%string /\ all_chars (fun c => negb (g_isspace c)) idle = true /\
    contents = Some (value ++ " " ++ idle ++ String "010" "")%string.

Definition standard_line (sx : sysctx) (uptime : string) (transaction : option string) (h : string) : Prop :=
  exists hs name label v, sx_enabled sx = Some hs /\ In name hs /\ In (name, label, Some v) (known sx uptime transaction) /\ h = (label ++ ": " ++ v)%string.

Definition handler_line (sx : sysctx) (h : string) : Prop :=
  exists k k' v, In (("RAUC_HTTP_" ++ k)%string, v) (sx_info sx) /\ dashed k k' /\ h = ("RAUC-" ++ k' ++ ": " ++ v)%string.

(** a header with the name ETag, in any case *)
Definition etag_header (h v : string) : Prop := exists name, strdown name = "etag"%string /\ chomp h = (name ++ ": " ++ v)%string.
(** .. with one of the names of a date *)
Definition date_header (what h v : string) : Prop := exists name, strdown name = what /\ chomp h = (name ++ ": " ++ v)%string.

(** [o] is the value of the last ETag header in [hs] *)
Definition last_etag (hs : list string) (o : option string) : Prop :=
  match o with
  | None => forall h v, In h hs -> ~ etag_header h v
  | Some v => exists before h after, hs = before ++ h :: after /\ etag_header h v /\ forall h' v', In h' after -> ~ etag_header h' v'
  end.

(** [t] is the last date in a header named [what] in [hs] (0: there is none) *)
Definition last_date (getdate : string -> option N) (what : string) (hs : list string) (t : N) : Prop :=
  (t = 0%N /\ forall h v d, In h hs -> date_header what h v -> getdate v <> Some d) \/
  (exists before h v after, hs = before ++ h :: after /\ date_header what h v /\ getdate v = Some t /\
     forall h' v' d, In h' after -> date_header what h' v' -> getdate v' <> Some d).

(** the headers of a response up to the first Content-Range which is refused *)
Fixpoint heard (hs : list string) : list string :=
  match hs with
  | [] => []
  | h :: r => match header_cb 0 h with Some _ => h :: heard r | None => [] end
  end.

(** ** a server, over time *)

Record sbundle := mkSbundle { sb_etag : option string; sb_manifest : string }.

(** one poll: the state of the system, the answers, what is found in the bundle, and what the server offers *)
Record pollev := mkPollev {
  pe_sys : sysctx;
  pe_uptime : option string;
  pe_answers : list attempt;
  pe_opened : opened;
  pe_current : option sbundle
}.

(** ETag headers are those of the bundle offered; 304 answers a request for "something else than" the ETag of the
    bundle offered, 204 says there is none; the manifest found is the one of the bundle offered *)
Definition honest (sent : list string) (e : pollev) : Prop :=
  (forall a h v, In a (pe_answers e) -> In h (g_headers (at_res a)) -> etag_header h v -> exists b, pe_current e = Some b /\ sb_etag b = Some v) /\
  (forall a, In a (pe_answers e) -> g_http (at_res a) = 304%N ->
     exists b v, pe_current e = Some b /\ sb_etag b = Some v /\ In ("If-None-Match: " ++ v)%string sent) /\
  (forall a, In a (pe_answers e) -> g_http (at_res a) = 204%N -> pe_current e = None) /\
  (forall m, pe_opened e = OpenManifest m -> exists b, pe_current e = Some b /\ sb_manifest b = m).

(** ETags tell bundles apart *)
Definition distinct (evs : list pollev) : Prop :=
  forall e1 e2 b1 b2 v, In e1 evs -> In e2 evs -> pe_current e1 = Some b1 -> pe_current e2 = Some b2 ->
    sb_etag b1 = Some v -> sb_etag b2 = Some v -> sb_manifest b1 = sb_manifest b2.

Definition fetch_ev (getdate : string -> option N) (conf : tlsconf) (url : string) (p : pollst) (e : pollev) : option (pollst * bool) :=
  poll_fetch getdate conf url (assemble (pe_sys e) (pe_uptime e) None) p (pe_answers e) (pe_opened e).

(** the headers of the requests this poll makes *)
Definition sent_ev (getdate : string -> option N) (conf : tlsconf) (url : string) (p : pollst) (e : pollev) (sent : list string) : Prop :=
  exists qs out c q, poll_start getdate conf url (assemble (pe_sys e) (pe_uptime e) None) p (pe_answers e) = Some (qs, out, c) /\ In q qs /\ q_headers q = sent.

(** the states after polls of an honest server *)
Inductive polled (getdate : string -> option N) (conf : tlsconf) (url : string) : list pollev -> pollst -> Prop :=
| polled_none : polled getdate conf url [] pollst0
| polled_more : forall evs p e p' ok, polled getdate conf url evs p -> fetch_ev getdate conf url p e = Some (p', ok) ->
    (forall sent, sent_ev getdate conf url p e sent -> honest sent e) -> polled getdate conf url (evs ++ [e]) p'.
