(** C78: encrypting bundles to recipients. *)
From Verif Require Import Base Image KeyFile Hex Semver Manifest Bundle BundleProofs Signature Resign Gates Recipients RecipientsSpec RecipientsProofs.
Open Scope list_scope.

Theorem C78_output : forall cr cf X files recipients copy app excl access fs inp out ok fs',
  (forall f, fs inp = Some f -> (N.of_nat (List.length f) < 2 ^ 64)%N) ->
  encrypt_start cr cf X files recipients copy app excl access fs inp out = (ok, fs') ->
  (forall q, q <> out -> fs' q = fs q) /\
  (ok = false -> fs' out = fs out) /\
  (ok = true -> fs out = None /\ exists names f b m cs e,
     recipients = Some names /\ fs inp = Some f /\
     check_bundle cr cf (mkBparams true false) false f excl access = Ok b /\ b_manifest b = Some m /\ mf_format m = F_CRYPT /\
     Forall (cert_file files) names /\
     (forall c, In c cs <-> exists n l, In n names /\ files n = Some l /\ In (PCert c) l) /\
     seal X cs (b_sig b) = Some e /\ e <> [] /\
     fs' out = Some (firstn (b_size b) f ++ e ++ be64 (N.of_nat (List.length e)))).
Proof. exact c78_output_ok. Qed.
Print Assumptions C78_output.
Theorem C78_completes : forall cr cf X files names fs inp out f b m excl access,
  (N.of_nat (List.length f) < 2 ^ 64)%N ->
  fs inp = Some f -> fs out = None -> check_bundle cr cf (mkBparams true false) false f excl access = Ok b ->
  b_manifest b = Some m -> mf_format m = F_CRYPT -> Forall (cert_file files) names ->
  (forall cs, exists e, seal X cs (b_sig b) = Some e /\ e <> []) ->
  exists fs', encrypt_start cr cf X files (Some names) Complete Complete excl access fs inp out = (true, fs').
Proof. exact c78_completes_ok. Qed.
Print Assumptions C78_completes.
(** whoever sees only the output learns about the signed manifest nothing but its encryption *)
Theorem C78_depends : forall cr cf X files recipients copy app excl access fs1 fs2 inp out fs1' fs2' f1 f2 b1 b2,
  (N.of_nat (List.length f1) < 2 ^ 64)%N -> (N.of_nat (List.length f2) < 2 ^ 64)%N ->
  fs1 inp = Some f1 -> fs2 inp = Some f2 ->
  check_bundle cr cf (mkBparams true false) false f1 excl access = Ok b1 ->
  check_bundle cr cf (mkBparams true false) false f2 excl access = Ok b2 ->
  firstn (b_size b1) f1 = firstn (b_size b2) f2 ->
  (forall cs, (forall c, In c cs -> exists names n l, recipients = Some names /\ In n names /\ files n = Some l /\ In (PCert c) l) ->
     seal X cs (b_sig b1) = seal X cs (b_sig b2)) ->
  encrypt_start cr cf X files recipients copy app excl access fs1 inp out = (true, fs1') ->
  encrypt_start cr cf X files recipients copy app excl access fs2 inp out = (true, fs2') ->
  fs1' out = fs2' out.
Proof. exact c78_depends_ok. Qed.
Print Assumptions C78_depends.
Theorem C78_recipient : forall cr X fits cs cf pr remote excl access payload sig e c k cert,
  honest_box X cr fits -> seal X cs sig = Some e -> e <> [] -> sig <> [] ->
  cm_enveloped cr sig = false -> cm_detached cr sig = Some false ->
  (N.of_nat (List.length payload + List.length sig + 8) < 2 ^ 64)%N -> (N.of_nat (List.length payload + List.length e + 8) < 2 ^ 64)%N ->
  (N.of_nat (List.length sig) <= bc_maxsig cf)%N -> (N.of_nat (List.length e) <= bc_maxsig cf)%N ->
  In c cs -> fits c k -> cert = None \/ cert = Some (Some c) -> bc_key cf = true ->
  let dev := with_key cr X cert (Some k) in
  check_bundle dev cf pr remote (append_signature payload e) excl access =
  mark_encrypted (check_bundle dev cf pr remote (append_signature payload sig) excl access).
Proof. exact c78_recipient_ok. Qed.
Print Assumptions C78_recipient.
Theorem C78_others : forall cr X fits cs cf pr remote excl access payload sig e cert k b,
  honest_box X cr fits -> seal X cs sig = Some e -> e <> [] ->
  (N.of_nat (List.length payload + List.length e + 8) < 2 ^ 64)%N -> (N.of_nat (List.length e) <= bc_maxsig cf)%N ->
  (forall c x, In c cs -> k = Some x -> ~ fits c x) ->
  check_bundle (with_key cr X cert k) cf pr remote (append_signature payload e) excl access = Ok b -> b_sig b <> sig.
Proof. exact c78_others_ok. Qed.
Print Assumptions C78_others.
Theorem C78_install : forall B cr sha (bk : InstallRun.backend B) cf a go remote f f_mount excl access inp w r es b m size raw,
  do_install cr sha bk cf a go remote f f_mount excl access inp w = (r, es) ->
  (if remote then open_remote (bc_maxsig (gc_bundle cf)) f else open_local (bc_maxsig (gc_bundle cf)) f) = Ok (size, raw) ->
  check_bundle cr (gc_bundle cf) (mkBparams true false) remote f excl access = Ok b ->
  b_manifest b = Some m -> mf_format m = F_CRYPT -> r = Ok tt \/ es <> [] -> cm_enveloped cr raw = true.
Proof. exact c78_install_ok. Qed.
Print Assumptions C78_install.
Theorem C78_resign_refuted : exists X cr fits cs e sig sig' fs fs' payload k b b',
  honest_box X cr fits /\ seal X cs sig = Some e /\ fs "in" = Some (append_signature payload e) /\
  check_bundle (with_key cr X None (Some k)) toy_conf (mkBparams true false) false (append_signature payload e) true true = Ok b /\
  b_was_encrypted b = true /\
  derive (mkRenv true Complete (fun _ => Some sig') Complete) fs "in" "out" (b_size b) = (true, fs') /\
  fs' "out" = Some (append_signature payload sig') /\
  check_bundle (with_key cr X None None) toy_conf (mkBparams true false) false (append_signature payload sig') true true = Ok b' /\
  b_manifest b' = b_manifest b /\ exists m, b_manifest b' = Some m /\ mf_crypt_key m <> None.
Proof. exact c78_resign_refuted. Qed.
Print Assumptions C78_resign_refuted.

(** a run: encrypt to the recipient with number 7; that device opens it, another does not *)
Definition ex_fs : rfs := fset (fun _ => None) "in" (Some (append_signature (repeat "P"%char 10) ["S"]%char)).
Definition ex_files (n : string) : option (list pem) := if String.eqb n "dev.pem" then Some [PCert toy_cert] else None.
Example C78_example :
  let r := encrypt_start (with_key toy_crypto toy_box None None) toy_conf toy_box ex_files (Some ["dev.pem"]) Complete Complete true true ex_fs "in" "out" in
  let f := append_signature (repeat "P"%char 10) ["E"; ascii_of_N 7; "S"]%char in
  fst r = true /\ snd r "out" = Some f /\
  honest_box toy_box toy_crypto toy_fits /\ toy_fits toy_cert 7%N /\ ~ toy_fits toy_cert 8%N /\
  (exists b, check_bundle (with_key toy_crypto toy_box None (Some 7%N)) toy_conf (mkBparams true false) false f true true = Ok b /\ b_sig b = ["S"]%char /\ b_was_encrypted b = true) /\
  check_bundle (with_key toy_crypto toy_box None (Some 8%N)) toy_conf (mkBparams true false) false f true true = Err.
Proof.
  cbv zeta. split; [vm_compute; reflexivity|]. split; [vm_compute; reflexivity|]. split; [exact toy_honest|]. split; [reflexivity|]. split; [discriminate|].
  split; [|vm_compute; reflexivity]. eexists. split; [vm_compute; reflexivity|]. split; reflexivity.
Qed.
(** a recipient file without certificates, or a missing one, is an error *)
Example C78_example_empty :
  fst (encrypt_start (with_key toy_crypto toy_box None None) toy_conf toy_box (fun _ => Some []) (Some ["dev.pem"]) Complete Complete true true ex_fs "in" "out") = false /\
  fst (encrypt_start (with_key toy_crypto toy_box None None) toy_conf toy_box ex_files (Some ["dev.pem"; "missing.pem"]) Complete Complete true true ex_fs "in" "out") = false.
Proof. vm_compute. auto. Qed.
