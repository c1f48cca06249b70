(** Property theorems for the streaming NBD server (C41, C49). *)
From Verif Require Import Base EnvKey KeyFile Nbd NbdSpec NbdProofs NbdConfig NbdConfigSpec NbdConfigProofs.

Theorem C41_success : forall es t h, In (OHead t h 0) (n_out (nrun es)) -> n_stat (nrun es) <> Aborted ->
  exists q c, request es t = Some q /\ h = q_handle q /\ In c (results es t) /\ complete q c /\
    In (OBody t (body_of c)) (n_out (nrun es)).
Proof. exact c41_success_ok. Qed.
Print Assumptions C41_success.
Theorem C41_data : forall es t d, In (OBody t d) (n_out (nrun es)) ->
  exists q c, request es t = Some q /\ In c (results es t) /\ complete q c /\ d = body_of c.
Proof. exact c41_data_ok. Qed.
Print Assumptions C41_data.
Theorem C41_framed : forall es, n_stat (nrun es) <> Aborted -> framed (filter on_socket (n_out (nrun es))).
Proof. exact c41_framed_ok. Qed.
Print Assumptions C41_framed.
Theorem C41_range : forall es t first last, In (OGet t first last) (n_out (nrun es)) ->
  exists q, request es t = Some q /\ q_type q = nbd_cmd_read /\ first = q_from q /\
    ((0 < q_len q -> q_from q + q_len q <= 2 ^ 64 -> last = q_from q + q_len q - 1)%N).
Proof. exact c41_range_ok. Qed.
Print Assumptions C41_range.
Theorem C41_bounded : forall es t, gets (n_out (nrun es)) t <= 6 /\ heads (n_out (nrun es)) t <= 1.
Proof. exact c41_bounded_ok. Qed.
Print Assumptions C41_bounded.
Theorem C41_error : forall es t h e, In (OHead t h e) (n_out (nrun es)) -> e <> 0%N ->
  exists q, request es t = Some q /\ h = q_handle q /\ e = 5%N /\
    ((exists c, In c (results es t) /\ (c_http c = 404%N /\ failed q c \/ c_http c <> 206%N /\ c_ok c = true)) \/
     6 <= List.length (results es t)).
Proof. exact c41_error_ok. Qed.
Print Assumptions C41_error.
Theorem C41_answered : forall es1 q es2, let es := es1 ++ EClient q :: es2 in let t := List.length (requests es1) in
  n_stat (nrun es) = Running -> q_type q = nbd_cmd_read ->
  (6 <= List.length (results es2 t) \/ exists c, In c (results es2 t) /\ (~ failed q c \/ c_http c = 404%N)) ->
  heads (n_out (nrun es)) t = 1.
Proof. exact c41_answered_ok. Qed.
Print Assumptions C41_answered.
Theorem C41_abort : forall es, n_stat (nrun es) = Aborted ->
  (exists q, In q (requests es) /\ q_type q <> nbd_cmd_read /\ q_type q <> nbd_cmd_disc) \/
  (exists t q c, request es t = Some q /\ In c (results es t) /\ short q c).
Proof. exact c41_abort_ok. Qed.
Print Assumptions C41_abort.
Theorem C41_short_refuted : exists es t q c, request es t = Some q /\ q_type q = nbd_cmd_read /\ results es t = [c] /\ short q c /\
  n_stat (nrun es) = Aborted /\ gets (n_out (nrun es)) t = 1 /\
  filter on_socket (n_out (nrun es)) = [OHead t (q_handle q) 0].
Proof. exact c41_short_refuted. Qed.
Print Assumptions C41_short_refuted.
Theorem C41_wrong_range_refuted : exists es t q c first last, request es t = Some q /\ q_type q = nbd_cmd_read /\
  results es t = [c] /\ c_range c = Some (first, last) /\ first <> q_from q /\
  In (OHead t (q_handle q) 0) (n_out (nrun es)) /\ In (OBody t (body_of c)) (n_out (nrun es)).
Proof. exact c41_wrong_range_refuted. Qed.
Print Assumptions C41_wrong_range_refuted.

(** non-vacuity: two concurrent reads; the first one fails once and is answered after the second one, which is not found *)
Definition ex_reqs := (mkNreq 0 "handle-A" 4096 4, mkNreq 0 "handle-B" 8192 4).
Definition ex_events : list nev :=
  [EClient (fst ex_reqs); EClient (snd ex_reqs);
   EDone 0 (mkCres false 0 None ["ab"%string]);
   EDone 1 (mkCres false 404 None []);
   EDone 0 (mkCres true 206 (Some (4096, 4099)%N) ["ab"%string; "cd"%string])].
Example ex_nbd : n_stat (nrun ex_events) = Running /\
  n_out (nrun ex_events) =
    [OGet 0 4096 4099; OGet 1 8192 8195; OGet 0 4096 4099; OHead 1 "handle-B" 5; OHead 0 "handle-A" 0; OBody 0 "abcd"].
Proof. split; vm_compute; reflexivity. Qed.
(** an overlong response is refused six times, then the read fails *)
Example ex_nbd_overlong :
  let es := EClient (fst ex_reqs) :: repeat (EDone 0 (mkCres true 206 None ["abc"%string; "de"%string])) 6 in
  gets (n_out (nrun es)) 0 = 6 /\ filter on_socket (n_out (nrun es)) = [OHead 0 "handle-A" 5] /\ n_stat (nrun es) = Running.
Proof. repeat split; vm_compute; reflexivity. Qed.

Theorem C49_accepted : forall rs n, nbd_configure rs = Some (CfgOk n) ->
  n <> 0%N /\ exists pre c post, rs = pre ++ c :: post /\ List.length pre <= 5 /\ usable c /\
    (forall h, In h (g_headers c) -> range_header h -> exists m, size_header h m) /\
    (exists c' h, In c' (pre ++ [c]) /\ In h (g_headers c') /\ size_header h n).
Proof. exact c49_accepted_ok. Qed.
Print Assumptions C49_accepted.
Theorem C49_decimal_size : forall h name unit n m, strdown name = "content-range"%string -> no_char " " unit = true ->
  chomp h = (name ++ ": " ++ unit ++ " 0-3/" ++ print_num 10 n)%string ->
  (size_header h m <-> m = n /\ (n < 2 ^ 64)%N).
Proof. exact size_header_decimal. Qed.
Print Assumptions C49_decimal_size.
Theorem C49_first : forall c rs n, usable c -> n <> 0%N ->
  (forall h, In h (g_headers c) -> range_header h -> size_header h n) -> (exists h, In h (g_headers c) /\ range_header h) ->
  nbd_configure (c :: rs) = Some (CfgOk n).
Proof. exact c49_first_ok. Qed.
Print Assumptions C49_first.
Theorem C49_answered : forall rs, 6 <= List.length rs -> nbd_configure rs <> None.
Proof. exact c49_answered_ok. Qed.
Print Assumptions C49_answered.
Theorem C49_errors : forall rs e, nbd_configure rs = Some (CfgErr e) ->
  exists pre c post, rs = pre ++ c :: post /\ List.length pre <= 5 /\
    (e = NoContent -> g_http c = 204%N) /\ (e = NotModified -> g_http c = 304%N) /\
    (e = Unauthorized -> g_http c = 401%N) /\ (e = NotFound -> g_http c = 404%N) /\
    (e = ConfigFailed -> ~ In (g_http c) [204; 304; 401; 404]%N).
Proof. exact c49_errors_ok. Qed.
Print Assumptions C49_errors.
Theorem C49_stale_size_refuted : exists rs c n, nbd_configure rs = Some (CfgOk n) /\ last rs c = c /\ In c rs /\ usable c /\
  forall h m, In h (g_headers c) -> ~ size_header h m.
Proof. exact c49_stale_size_refuted. Qed.
Print Assumptions C49_stale_size_refuted.

(** non-vacuity *)
Definition ex_cfg : cfgres := mkCfgres true 206
  ["HTTP/2 206"; "content-length: 4"; "Content-Range: bytes 0-3/26498"; ""]%string ["hsqs"%string].
Example ex_cfg_ok : nbd_configure [mkCfgres false 0 [] []; ex_cfg] = Some (CfgOk 26498).
Proof. vm_compute. reflexivity. Qed.
Example ex_cfg_hyp : usable ex_cfg /\ size_header "Content-Range: bytes 0-3/26498" 26498 /\
  (forall h, In h (g_headers ex_cfg) -> range_header h -> size_header h 26498).
Proof.
  assert (A : size_header "Content-Range: bytes 0-3/26498" 26498).
  { exists "Content-Range"%string, "bytes"%string, "26498"%string. repeat split; vm_compute; reflexivity. }
  split; [repeat split|]. split; [exact A|].
  intros h [<-|[<-|[<-|[<-|[]]]]] Hr; [exfalso|exfalso|exact A|exfalso];
    destruct (header_cb_cases 7 "HTTP/2 206") as [_ H]; destruct Hr as (name & v & B & C);
    match type of C with ?x = _ => assert (split_header x <> Some (name, v)) as N
      by (vm_compute; intros E; try discriminate; injection E as <- <-; discriminate B) end;
    rewrite C, split_header_make in N by (apply strdown_no_colon; rewrite B; reflexivity); now apply N.
Qed.
Example ex_cfg_errors :
  nbd_configure [mkCfgres true 200 [] ["hsqs"%string]] = Some (CfgErr ConfigFailed) /\
  nbd_configure [mkCfgres true 304 [] []] = Some (CfgErr NotModified) /\
  nbd_configure (repeat (mkCfgres false 401 [] []) 6) = Some (CfgErr Unauthorized).
Proof. repeat split; vm_compute; reflexivity. Qed.
