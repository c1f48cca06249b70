(** Vocabulary of C56. *)
From Verif Require Import Base Image KeyFile Hex Semver Manifest Bundle Signature.

(** the world of certificates: [p_issued a b]: [b] signed [a]; [p_keyring path dir x]: [x] is in
    the keyring file or directory; [p_self]: self-signed; [p_valid x t]: [t] is in the validity
    period; [p_revoked]: a CRL of the keyring revokes it, or there is no CRL for its issuer;
    [p_purpose p x ca]: OpenSSL's own check for purpose [p], for a signer or a CA *)
Record pki := mkPki {
  p_issued : cert -> cert -> bool;
  p_keyring : option string -> option string -> cert -> bool;
  p_self : cert -> bool;
  p_valid : cert -> Z -> bool;
  p_revoked : cert -> bool;
  p_purpose : string -> cert -> bool -> bool;
  p_now : Z
}.

(** each certificate was issued by the next one *)
Fixpoint linked (P : pki) (ch : list cert) : Prop :=
  match ch with
  | a :: (b :: _) as r => p_issued P a b = true /\ linked P r
  | _ => True
  end.

(** fit for code signing: the signer must say so and may sign; a CA must not say otherwise *)
Definition code_signer (x : cert) : Prop := ct_eku x = Some true /\ ct_ku x <> Some false.
Definition code_ca (x : cert) : Prop := ct_eku x <> Some false /\ ct_check_ca x <> 0%N.

(** at which time certificates have to be valid; None: at any *)
Definition check_time (no_time : bool) (t : option Z) (now : Z) : option Z :=
  match t with
  | Some t => Some t
  | None => if no_time then None else Some now
  end.

(** what OpenSSL promises for a chain it accepts (X509_verify_cert): it starts with the
    certificate in question, is linked, ends in the keyring - with a self-signed certificate
    unless partial chains are allowed -, all its certificates are valid at the time set in the
    store, not revoked if CRLs are checked, and the purpose check function did not refuse
    them (called with ca=0 for the first and ca=1 for the others) *)
Definition chain_ok (P : pki) (st : store) (x : cert) (rest : list cert) : Prop :=
  linked P (x :: rest) /\
  p_keyring P (st_path st) (st_dir st) (last (x :: rest) x) = true /\
  (st_partial st = false -> p_self P (last (x :: rest) x) = true) /\
  (forall t, check_time (st_no_time st) (st_time st) (p_now P) = Some t -> Forall (fun y => p_valid P y t = true) (x :: rest)) /\
  (st_crl st = true -> Forall (fun y => p_revoked P y = false) (x :: rest)) /\
  (st_purpose st = Some "codesign-rauc" ->
     check_purpose_code_sign x false <> 0%N /\ Forall (fun y => check_purpose_code_sign y true <> 0%N) rest) /\
  (forall p, st_purpose st = Some p -> p <> "codesign-rauc" ->
     p_purpose P p x false = true /\ Forall (fun y => p_purpose P p y true = true) rest).
Definition honest (L : openssl) (P : pki) : Prop :=
  forall st x certs ch, ssl_chain L st x certs = Some ch -> exists rest, ch = x :: rest /\ chain_ok P st x rest.

(** and it accepts a certificate if there is such a chain of certificates it knows *)
Definition complete (L : openssl) (P : pki) : Prop :=
  forall st x certs rest, chain_ok P st x rest ->
    (forall y, In y rest -> In y certs \/ p_keyring P (st_path st) (st_dir st) y = true) ->
    exists ch, ssl_chain L st x certs = Some ch.

(** the policy of system.conf for a signer's certificate [x] and its issuers [rest];
    [stime]: the signing time.  Without check-purpose the purpose is S/MIME signing. *)
Definition trusted_by (P : pki) (K : keyconf) (stime : option Z) (x : cert) (rest : list cert) : Prop :=
    linked P (x :: rest) /\
    p_keyring P (k_path K) (k_dir K) (last (x :: rest) x) = true /\
    (k_partial K = false -> p_self P (last (x :: rest) x) = true) /\
    (k_signing_time K = true -> exists t, stime = Some t /\ (0 <= t)%Z /\ Forall (fun y => p_valid P y t = true) (x :: rest)) /\
    (k_signing_time K = false -> k_no_time K = false -> Forall (fun y => p_valid P y (p_now P) = true) (x :: rest)) /\
    (k_crl K = true -> Forall (fun y => p_revoked P y = false) (x :: rest)) /\
    (k_purpose K = Some "codesign-rauc" -> code_signer x /\ Forall code_ca rest) /\
    (forall p, p = match k_purpose K with Some p => p | None => "smimesign" end -> p <> "codesign-rauc" ->
       p_purpose P p x false = true /\ Forall (fun y => p_purpose P p y true = true) rest).
Definition trusted (P : pki) (K : keyconf) (stime : option Z) (x : cert) : Prop := exists rest, trusted_by P K stime x rest.

(** the keyring can be read and the purpose is known *)
Definition store_ready (L : openssl) (K : keyconf) : Prop :=
  ssl_load L (k_path K) (k_dir K) = true /\ (forall p, k_purpose K = Some p -> p = "codesign-rauc" \/ ssl_purpose L p = true).

(** the signing time attribute of a signer *)
Definition signing_time (s : signer) : option Z :=
  match si_time s with Some (TimeAt t) => Some t | _ => None end.

(** allowed-signer-cns: unset, or it has the signer's common name *)
Definition cn_allowed (K : keyconf) (x : cert) : Prop :=
  match k_cns K with
  | None => True
  | Some l => exists cn, ct_cn x = Some cn /\ In cn l /\ has_nul cn = false
  end.

(** [c] is a signature by exactly one signer whose certificate [x] is trusted and allowed,
    over [content] *)
Definition signed_by (L : openssl) (P : pki) (K : keyconf) (c : cms) (x : cert) (content : bytes) : Prop :=
  cs_type c = TSigned /\
  exists s, cs_signers c = [s] /\ si_cert s = Some x /\ ssl_sig L s content = true /\
    trusted P K (signing_time s) x /\ cn_allowed K x.

(** everything check_bundle sees *)
Definition check (L : openssl) (K : keyconf) (load inner : bytes -> res manifest)
    (verity : bytes -> nat -> string -> string -> bool) (cf : bconf) (pr : bparams) (remote : bool) (f : bytes)
    (excl access : bool) : res bundle :=
  check_bundle (sig_crypto L K load inner verity) cf pr remote f excl access.
