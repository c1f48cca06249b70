(** C70: the HTTP requests of streaming, and the freshness of polling. *)
From Verif Require Import Base BaseLemmas KeyFile EnvKey Nbd NbdConfig NbdConfigSpec Context Http HttpSpec HttpProofs.
Open Scope list_scope.

Theorem C70_requests : forall getdate url args conf rs reads q,
  In q (stream_requests getdate (make_srv url (Some args) conf) rs reads) ->
  q_cert q = (match ac_cert args with Some c => Some c | None => tc_cert conf end) /\
  option_map snd (q_key q) = (match ac_key args with Some c => Some c | None => tc_key conf end) /\
  q_ca q = (match ac_ca args with Some c => Some c | None => tc_ca conf end) /\
  (q_verify_peer q = false <-> ac_no_verify args = true) /\
  (forall t k, q_key q = Some (t, k) -> (t = KeyProvider <-> exists uri, k = ("pkcs11:" ++ uri)%string)) /\
  let user := match ac_headers args with Some l => l | None => [] end in
  let info := match ac_info args with Some l => l | None => [] end in
  (q_url q = url /\ q_range q = "0-3"%string /\ q_headers q = user ++ info \/
   (exists from len a, In (from, len) reads /\ In a rs /\ usable (at_res a) /\ q_url q = at_url a /\ q_headers q = user /\
      (from + len <= 2 ^ 64 -> 1 <= len -> q_range q = (print_num 10 from ++ "-" ++ print_num 10 (from + len - 1))%string)%N)).
Proof. exact c70_requests_ok. Qed.
Print Assumptions C70_requests.
Theorem C70_agent : forall getdate s rs qs out c q, stream_start getdate s rs = Some (qs, out, c) -> In q qs -> q_agent q = true.
Proof. exact c70_agent_ok. Qed.
Print Assumptions C70_agent.
Theorem C70_poll_tls : forall getdate conf url info p rs qs out c q, poll_start getdate conf url info p rs = Some (qs, out, c) -> In q qs ->
  q_verify_peer q = true /\ q_cert q = tc_cert conf /\ option_map snd (q_key q) = tc_key conf /\ q_ca q = tc_ca conf /\ q_url q = url.
Proof. exact c70_poll_tls_ok. Qed.
Print Assumptions C70_poll_tls.
Theorem C70_information : forall (sx : sysctx) (file : option string) (transaction : option string) (uptime h : string),
  uptime_of file uptime ->
  (In h (assemble sx file transaction) <-> standard_line sx uptime transaction h \/ handler_line sx h).
Proof. exact c70_info_ok. Qed.
Print Assumptions C70_information.
Theorem C70_handler_lines : forall h vars sx, system_info h = Ok vars -> sx_info sx = vars ->
  forall line, handler_line sx line -> no_char "010" line = true.
Proof. exact c70_handler_lines_ok. Qed.
Print Assumptions C70_handler_lines.
Theorem C70_standard_lines : forall sx uptime transaction line, standard_line sx uptime transaction line ->
  (forall name label v, In (name, label, Some v) (known sx uptime transaction) -> no_char "010" v = true) -> no_char "010" line = true.
Proof. exact c70_standard_lines_ok. Qed.
Print Assumptions C70_standard_lines.
Theorem C70_uptime_refuted : exists sx, In "RAUC-Uptime: (null)"%string (assemble sx None None).
Proof. exact c70_uptime_refuted. Qed.
Print Assumptions C70_uptime_refuted.
Theorem C70_answer : forall getdate s rs qs st c,
  stream_start getdate s rs = Some (qs, StrOk st, c) ->
  let hs := flat_map (fun a => heard (g_headers (at_res a))) (firstn (List.length qs) rs) in
  last_etag hs (sm_etag st) /\ last_date getdate "date" hs (sm_current st) /\ last_date getdate "last-modified" hs (sm_modified st) /\
  nbd_configure (map at_res rs) = Some (CfgOk (sm_size st)) /\
  exists a, nth_error rs (List.length qs - 1) = Some a /\ usable (at_res a) /\ sm_url st = at_url a.
Proof. exact c70_answer_ok. Qed.
Print Assumptions C70_answer.
Theorem C70_same_configuration : forall getdate s rs,
  match stream_start getdate s rs with
  | Some (_, StrOk st, _) => nbd_configure (map at_res rs) = Some (CfgOk (sm_size st))
  | Some (_, StrErr e, _) => nbd_configure (map at_res rs) = Some (CfgErr e)
  | None => nbd_configure (map at_res rs) = None
  end.
Proof. exact c70_same_ok. Qed.
Print Assumptions C70_same_configuration.
Theorem C70_conditional : forall getdate conf url p e sent h, sent_ev getdate conf url p e sent ->
  (In h sent <-> In h (assemble (pe_sys e) (pe_uptime e) None) \/ exists v, ps_etag p = Some v /\ h = ("If-None-Match: " ++ v)%string).
Proof. exact c70_conditional_ok. Qed.
Print Assumptions C70_conditional.
Theorem C70_fresh : forall getdate conf url evs p e p',
  polled getdate conf url evs p -> distinct (evs ++ [e]) ->
  fetch_ev getdate conf url p e = Some (p', true) -> (forall sent, sent_ev getdate conf url p e sent -> honest sent e) ->
  ps_manifest p' = option_map sb_manifest (pe_current e).
Proof. exact c70_fresh_ok. Qed.
Print Assumptions C70_fresh.
Theorem C70_failed_keeps : forall getdate conf url p e p', fetch_ev getdate conf url p e = Some (p', false) -> p' = p.
Proof. exact c70_failed_keeps_ok. Qed.
Print Assumptions C70_failed_keeps.
Theorem C70_redirect_refuted : exists url final e1 e2 p1 p2,
  In "HTTP/1.1 302 Found"%string (flat_map (fun a => g_headers (at_res a)) (pe_answers e1)) /\
  (exists first, flat_map (fun a => g_headers (at_res a)) (pe_answers e1) = first ++ final) /\ (forall h v, In h final -> ~ etag_header h v) /\
  pe_current e1 = Some (mkSbundle None "one") /\ pe_opened e1 = OpenManifest "one" /\ pe_current e2 = Some (mkSbundle None "two") /\
  fetch_ev (fun _ => None) (mkTlsconf None None None) url pollst0 e1 = Some (p1, true) /\
  fetch_ev (fun _ => None) (mkTlsconf None None None) url p1 e2 = Some (p2, true) /\
  ps_manifest p2 = Some "one"%string.
Proof. exact c70_redirect_refuted. Qed.
Print Assumptions C70_redirect_refuted.

Definition ex_sys : sysctx := mkSysctx (Some ["boot-id"; "serial"; "uptime"]%string) (Some "b1"%string) (Some "m1"%string) None None None
  [("RAUC_HTTP_MY_INFO", "x=1"); ("RAUC_SYSTEM_VARIANT", "v")]%string.
Example C70_information_example : uptime_of (Some ("12.5 3.0" ++ String "010" "")%string) "12.5" /\
  assemble ex_sys (Some ("12.5 3.0" ++ String "010" "")%string) None = ["RAUC-Boot-ID: b1"; "RAUC-Uptime: 12.5"; "RAUC-MY-INFO: x=1"]%string.
Proof. split; [|reflexivity]. split; [reflexivity|]. exists "3.0"%string. split; [discriminate|]. split; reflexivity. Qed.

Definition ex_answer (etag : string) : list attempt :=
  [mkAttempt (mkCfgres false 503 ["HTTP/1.1 503 Busy"; "Date: d"]%string []) "http://a";
   mkAttempt (mkCfgres true 206 ["HTTP/1.1 206 Partial Content"; "Content-Range: bytes 0-3/4711"; "etag: " ++ etag; "Last-Modified: yesterday"]%string ["hs"; "qs"]%string) "http://b"].
Definition ex_args70 : access := mkAccess None (Some "pkcs11:x"%string) None true (Some ["X-A: b"%string]) (Some ["RAUC-Boot-ID: b1"%string]).
Definition ex_tls : tlsconf := mkTlsconf (Some "/c.pem"%string) (Some "/k.pem"%string) None.
Example C70_requests_example :
  stream_requests (fun s => if String.eqb s "yesterday" then Some 7%N else None) (make_srv "http://a" (Some ex_args70) ex_tls) (ex_answer "e") [(0, 4096); (8192, 512)]%N =
  let c := mkRequest "http://a" (Some "/c.pem"%string) (Some (KeyProvider, "pkcs11:x"%string)) None false ["X-A: b"; "RAUC-Boot-ID: b1"]%string "0-3" true in
  let r range := mkRequest "http://b" (Some "/c.pem"%string) (Some (KeyProvider, "pkcs11:x"%string)) None false ["X-A: b"%string] range false in
  [c; c; r "0-4095"%string; r "8192-8703"%string].
Proof. vm_compute. reflexivity. Qed.
Example C70_answer_example : exists qs c,
  stream_start (fun s => if String.eqb s "yesterday" then Some 7%N else None) (make_srv "http://a" (Some ex_args70) ex_tls) (ex_answer "e") =
  Some (qs, StrOk (mkStreamed 4711 "http://b" 0 7 (Some "e"%string)), c) /\ List.length qs = 2.
Proof. do 2 eexists. split; vm_compute; reflexivity. Qed.

(** three polls: a bundle, the same one, another one *)
Definition ex_one : sbundle := mkSbundle (Some "e"%string) "one".
Definition ex_two : sbundle := mkSbundle (Some "f"%string) "two".
Definition ex_p1 : pollev := mkPollev ex_sys None (ex_answer "e") (OpenManifest "one") (Some ex_one).
Definition ex_p2 : pollev := mkPollev ex_sys None [mkAttempt (mkCfgres true 304 ["ETag: e"]%string []) "http://b"] OpenFailed (Some ex_one).
Definition ex_p3 : pollev := mkPollev ex_sys None (ex_answer "f") (OpenManifest "two") (Some ex_two).
Definition ex_st1 : pollst := mkPollst (Some "one"%string) 4711 0 (Some "http://b"%string) (Some "e"%string).
Lemma ex_etag : forall h v, etag_header h v -> match split_header (chomp h) with Some (n, w) => v = w /\ strdown n = "etag"%string | None => False end.
Proof. intros h v He. apply etag_split in He as (n & A & B). rewrite A. auto. Qed.
Lemma ex_honest1 : forall sent, honest sent ex_p1.
Proof.
  intros sent. split; [|split; [|split]].
  - intros a h v Ha Hh He. apply ex_etag in He. destruct Ha as [<-|[<-|[]]]; cbn [g_headers at_res In] in Hh.
    + destruct Hh as [<-|[<-|[]]]; vm_compute in He; [destruct He|destruct He as [_ He]; discriminate He].
    + destruct Hh as [<-|[<-|[<-|[<-|[]]]]]; vm_compute in He;
        [destruct He|destruct He as [_ He]; discriminate He|destruct He as [-> _]; exists ex_one; split; reflexivity|destruct He as [_ He]; discriminate He].
  - intros a [<-|[<-|[]]] H; discriminate H.
  - intros a [<-|[<-|[]]] H; discriminate H.
  - intros m H. injection H as <-. exists ex_one. split; reflexivity.
Qed.
Example C70_fresh_example : polled (fun _ => None) ex_tls "http://a" [ex_p1] ex_st1 /\
  (forall sent, sent_ev (fun _ => None) ex_tls "http://a" ex_st1 ex_p2 sent -> honest sent ex_p2) /\ distinct ([ex_p1] ++ [ex_p2]) /\
  fetch_ev (fun _ => None) ex_tls "http://a" ex_st1 ex_p2 = Some (ex_st1, true) /\
  exists p3, fetch_ev (fun _ => None) ex_tls "http://a" ex_st1 ex_p3 = Some (p3, true) /\ ps_manifest p3 = Some "two"%string.
Proof.
  split; [|split; [|split; [|split]]].
  - apply (polled_more (fun _ => None) ex_tls "http://a" [] pollst0 ex_p1 ex_st1 true); [constructor|vm_compute; reflexivity|].
    intros sent _. apply ex_honest1.
  - intros sent Hs. split; [|split; [|split]].
    + intros a h v [<-|[]] [<-|[]] He. apply ex_etag in He. vm_compute in He. destruct He as [-> _]. exists ex_one. split; reflexivity.
    + intros a [<-|[]] _. exists ex_one, "e"%string. split; [reflexivity|]. split; [reflexivity|].
      apply (C70_conditional _ _ _ _ _ _ _ Hs). right. exists "e"%string. split; reflexivity.
    + intros a [<-|[]] H. discriminate H.
    + intros m H. discriminate H.
  - intros e1 e2 b1 b2 v [<-|[<-|[]]] [<-|[<-|[]]] H1 H2 _ _; injection H1 as <-; injection H2 as <-; reflexivity.
  - vm_compute. reflexivity.
  - eexists. split; vm_compute; reflexivity.
Qed.
Example C70_handler_lines_example : exists vars, system_info (Output ("RAUC_HTTP_A=1" ++ String "010" "RAUC_X=2")%string true) = Ok vars /\
  handler_line (mkSysctx None None None None None None vars) "RAUC-A: 1".
Proof. eexists. split; [reflexivity|]. exists "A"%string, "A"%string, "1"%string. split; [now left|]. split; [|reflexivity]. apply dashed_other; [discriminate|constructor]. Qed.
Example C70_standard_lines_example : standard_line ex_sys "1" None "RAUC-Boot-ID: b1" /\
  (forall name label v, In (name, label, Some v) (known ex_sys "1" None) -> no_char "010" v = true).
Proof.
  split; [exists ["boot-id"; "serial"; "uptime"]%string, "boot-id"%string, "RAUC-Boot-ID"%string, "b1"%string; repeat split; now left|].
  intros n l v H. cbn in H. repeat destruct H as [H|H]; try (injection H as <- <- <-; reflexivity); try discriminate H; destruct H.
Qed.
