(** Model of src/signature.c: which signatures are accepted.  OpenSSL is a parameter
    ([openssl]); what rauc asks of it, with which settings, and what it does with the answers
    is modelled. *)
From Verif Require Import Base Image KeyFile Hex Semver Manifest Bundle.

(** *** certificates and CMS structures, as far as rauc looks into them *)

(** X509: [ct_id] identifies the certificate; [ct_cn] is the first commonName of the subject
    (X509_NAME_get_index_by_NID with lastpos -1), as the bytes of the ASN.1 string;
    [ct_ku]: keyUsage extension and whether it has digitalSignature; [ct_eku]: extendedKeyUsage
    extension and whether it has codeSigning; [ct_check_ca] = X509_check_ca *)
Record cert := mkCert {
  ct_id : N;
  ct_cn : option string;
  ct_ku : option bool;
  ct_eku : option bool;
  ct_check_ca : N
}.

(** the signingTime attribute: not a time at all, one that cannot be converted to struct tm,
    or the time_t given by timegm *)
Inductive timeattr := TimeOther | TimeBad | TimeAt (t : Z).

(** CMS_SignerInfo; [si_cert]: the certificate with the signer's identifier, if it is among
    those of the CMS *)
Record signer := mkSigner { si_id : N; si_cert : option cert; si_time : option timeattr }.

Inductive cmstype := TSigned | TEnveloped | TOther.

(** CMS_ContentInfo; [cs_content]: None if the content is detached *)
Record cms := mkCms {
  cs_type : cmstype;
  cs_content : option bytes;
  cs_signers : list signer;
  cs_certs : list cert
}.

(** *** configuration and store *)

(** [keyring] section of system.conf (config_file.c:588-668) and CHECK_BUNDLE_NO_CHECK_TIME *)
Record keyconf := mkKeyconf {
  k_path : option string;
  k_dir : option string;
  k_crl : bool;                           (* check-crl *)
  k_partial : bool;                       (* allow-partial-chain *)
  k_purpose : option string;              (* check-purpose, 'codesign' already replaced by 'codesign-rauc' *)
  k_cns : option (list string);           (* allowed-signer-cns *)
  k_signing_time : bool;                  (* use-bundle-signing-time *)
  k_no_time : bool                        (* --no-check-time *)
}.

(** config_file.c:653-658 *)
Definition config_purpose (s : option string) : option string :=
  match s with
  | Some s => Some (if String.eqb s "codesign" then "codesign-rauc" else s)
  | None => None
  end.

(** X509_STORE with its X509_VERIFY_PARAM *)
Record store := mkStore {
  st_path : option string;
  st_dir : option string;
  st_crl : bool;
  st_partial : bool;
  st_purpose : option string;
  st_no_time : bool;                      (* X509_V_FLAG_NO_CHECK_TIME *)
  st_time : option Z                      (* X509_V_FLAG_USE_CHECK_TIME and check_time *)
}.

(** OpenSSL.  [ssl_load path dir]: X509_STORE_load_locations succeeds; [ssl_purpose]: the
    purposes known besides rauc's own; [ssl_parse] = d2i_CMS_bio; [ssl_chain st c certs]:
    X509_verify_cert of [c] with [certs] as untrusted certificates, and the chain it built;
    [ssl_sig s content]: the signature of this signer over its signed attributes and over
    [content] is right; [ssl_decrypt]: CMS_decrypt *)
Record openssl := mkOpenssl {
  ssl_load : option string -> option string -> bool;
  ssl_purpose : string -> bool;
  ssl_parse : bytes -> option cms;
  ssl_chain : store -> cert -> list cert -> option (list cert);
  ssl_sig : signer -> bytes -> bool;
  ssl_decrypt : bytes -> option bytes
}.

(** signature.c:57-97 check_purpose_code_sign *)
Definition check_purpose_code_sign (x : cert) (ca : bool) : N :=
  if ca then
    match ct_eku x with
    | Some false => 0
    | _ => ct_check_ca x
    end
  else
    match ct_ku x with
    | Some false => 0
    | _ => match ct_eku x with
           | Some true => 1
           | _ => 0
           end
    end.

(** signature.c:113-131 signature_init: the purposes that can be configured *)
Definition known_purpose (L : openssl) (s : string) : bool := String.eqb s "codesign-rauc" || ssl_purpose L s.

(** signature.c:497-501: a path given by the caller replaces the configured one, an empty one
    disables it *)
Definition pick (given configured : option string) : option string :=
  match given with
  | Some s => if String.eqb s "" then None else Some s
  | None => configured
  end.

(** signature.c:494-549 setup_x509_store *)
Definition setup_store (L : openssl) (K : keyconf) (capath cadir : option string) : option store :=
  let path := pick capath (k_path K) in
  let dir := pick cadir (k_dir K) in
  if negb (ssl_load L path dir) then None
  else match k_purpose K with
       | Some p => if known_purpose L p
                   then Some (mkStore path dir (k_crl K) (k_partial K) (Some p) false None)
                   else None
       | None => Some (mkStore path dir (k_crl K) (k_partial K) None false None)
       end.

Definition with_time (st : store) (t : Z) : store :=
  mkStore (st_path st) (st_dir st) (st_crl st) (st_partial st) (st_purpose st) (st_no_time st) (Some t).
Definition with_no_time (st : store) : store :=
  mkStore (st_path st) (st_dir st) (st_crl st) (st_partial st) (st_purpose st) true (st_time st).

(** CMS_verify uses the purpose smimesign unless the store has one (OpenSSL,
    cms_signerinfo_verify_cert) *)
Definition cms_store (st : store) : store :=
  mkStore (st_path st) (st_dir st) (st_crl st) (st_partial st)
    (match st_purpose st with Some p => Some p | None => Some "smimesign" end) (st_no_time st) (st_time st).

(** OpenSSL CMS_verify: there is a signer, every signer has a certificate which the store
    accepts, and every signature is right *)
Definition cms_verify (L : openssl) (st : store) (c : cms) (content : bytes) : bool :=
  negb (Nat.eqb (List.length (cs_signers c)) 0) &&
  forallb (fun s => match si_cert s with
                    | None => false
                    | Some x => match ssl_chain L (cms_store st) x (cs_certs c) with
                                | None => false
                                | Some _ => ssl_sig L s content
                                end
                    end) (cs_signers c).

(** CMS_get0_signers *)
Definition signer_certs (c : cms) : list cert :=
  flat_map (fun s => match si_cert s with Some x => [x] | None => [] end) (cs_signers c).

Fixpoint has_nul (s : string) : bool :=
  match s with
  | EmptyString => false
  | String c r => Ascii.eqb c "000"%char || has_nul r
  end.

(** signature.c:1143-1185 the loop of cms_check_signer_cns *)
Fixpoint check_cns (allowed : list string) (l : list cert) : bool :=
  match l with
  | [] => false
  | x :: r => match ct_cn x with
              | None => check_cns allowed r
              | Some cn => if has_nul cn then false
                           else if existsb (String.eqb cn) allowed then true else check_cns allowed r
              end
  end.
(** signature.c:1124-1192 cms_check_signer_cns *)
Definition check_signer_cns (K : keyconf) (c : cms) : bool :=
  match k_cns K with
  | None => true
  | Some allowed => check_cns allowed (signer_certs c)
  end.

(** signature.c:1396-1484 cms_get_signingtime *)
Definition get_signingtime (c : cms) : option Z :=
  match cs_signers c with
  | [s] => match si_time s with
           | Some (TimeAt t) => if (t <? 0)%Z then None else Some t
           | _ => None
           end
  | _ => None
  end.

(** signature.c:1486-1614 cms_verify_bytes.  [content]: Some for a detached signature to be
    checked against it; [want]: the caller wants the manifest.  The result: the structure, the
    store as it is afterwards (the signing time is set in it) and the manifest. *)
Definition verify_bytes (L : openssl) (K : keyconf) (st : store) (content : option bytes) (want : bool) (sig : bytes)
  : option (cms * store * option bytes) :=
  match ssl_parse L sig with
  | None => None
  | Some c =>
      match cs_type c with
      | TEnveloped | TOther => None
      | TSigned =>
          let run data out :=
            let st' := if k_signing_time K then
                         match get_signingtime c with Some t => Some (with_time st t) | None => None end
                       else Some st in
            match st' with
            | None => None
            | Some st' =>
                if cms_verify L st' c data then
                  if check_signer_cns K c then Some (c, st', out) else None
                else None
            end in
          match cs_content c, content with
          | None, None => None
          | None, Some data => if want then None else run data None
          | Some _, Some _ => None
          | Some inner, None => if want then run inner (Some inner) else None
          end
      end
  end.

(** signature.c:1194-1254 cms_get_cert_chain *)
Definition get_cert_chain (L : openssl) (st : store) (c : cms) : option (list cert) :=
  match signer_certs c with
  | [x] => ssl_chain L st x (cs_certs c)
  | _ => None
  end.

(** bundle.c:2457-2475: the store for check_bundle *)
Definition bundle_store (L : openssl) (K : keyconf) : option store :=
  match setup_store L K None None with
  | None => None
  | Some st => Some (if k_no_time K then with_no_time st else st)
  end.

(** bundle.c:2504-2517 cms_verify_sig (signature.c:1711-1729) and cms_get_cert_chain *)
Definition verify_sig (L : openssl) (K : keyconf) (sig : bytes) : option bytes :=
  match bundle_store L K with
  | None => None
  | Some st =>
      match verify_bytes L K st None true sig with
      | Some (c, st', Some m) => match get_cert_chain L st' c with Some _ => Some m | None => None end
      | _ => None
      end
  end.

(** INT32_MAX *)
Definition max_plain : N := 2147483647.

(** bundle.c:2484-2517 cms_verify_fd (signature.c:1660-1709) and cms_get_cert_chain.
    [payload]: the bytes before the signature.  If there are none the code would check the
    whole file, which includes the signature, against the signature; refused here. *)
Definition verify_fd (L : openssl) (K : keyconf) (payload sig : bytes) : bool :=
  match bundle_store L K with
  | None => false
  | Some st =>
      if Nat.eqb (List.length payload) 0 then false
      else if (max_plain <? N.of_nat (List.length payload))%N then false
      else match verify_bytes L K st (Some payload) false sig with
           | Some (c, st', _) => match get_cert_chain L st' c with Some _ => true | None => false end
           | None => false
           end
  end.

(** signature.c:1277-1305 cms_is_detached *)
Definition is_detached (L : openssl) (sig : bytes) : option bool :=
  match ssl_parse L sig with
  | None => None
  | Some c => Some (match cs_content c with None => true | Some _ => false end)
  end.
(** signature.c:1307-1325 cms_is_envelopeddata *)
Definition is_enveloped (L : openssl) (sig : bytes) : bool :=
  match ssl_parse L sig with
  | Some c => match cs_type c with TEnveloped => true | _ => false end
  | None => false
  end.
(** signature.c:1327-1394 cms_get_unverified_manifest *)
Definition get_unverified (L : openssl) (sig : bytes) : option bytes :=
  match ssl_parse L sig with
  | Some c => match cs_content c with
              | Some m => if Nat.eqb (List.length m) 0 then None else Some m
              | None => None
              end
  | None => None
  end.
(** signature.c:1806-1905 cms_decrypt (loading key and certificate not modelled) *)
Definition decrypt (L : openssl) (data : bytes) : option bytes :=
  match ssl_parse L data with
  | Some c => match cs_type c with TEnveloped => ssl_decrypt L data | _ => None end
  | None => None
  end.

(** check_bundle of Bundle.v with these functions; manifest loading, squashfs and dm-verity
    remain parameters *)
Definition sig_crypto (L : openssl) (K : keyconf) (load inner : bytes -> res manifest)
    (verity : bytes -> nat -> string -> string -> bool) : crypto :=
  mkCrypto (is_detached L) (is_enveloped L) (decrypt L) (verify_sig L K) (verify_fd L K) (get_unverified L)
    load inner verity.

(** signature.c:551-675 cms_sign, after the signature [res] was made: with a keyring it is
    verified and kept only if that succeeds.  [signing]: --signing-keyring *)
Definition sign_check (L : openssl) (K : keyconf) (signing : option string) (detached : bool) (content res : bytes)
  : option bytes :=
  let '(path, dir) := match signing with
                      | Some s => (Some s, Some "")
                      | None => (k_path K, k_dir K)
                      end in
  match path, dir with
  | None, None => Some res
  | _, _ =>
      match setup_store L K path dir with
      | None => None
      | Some st =>
          match (if detached then verify_bytes L K st (Some content) false res else verify_bytes L K st None true res) with
          | None => None
          | Some (c, st', _) => match get_cert_chain L st' c with Some _ => Some res | None => None end
          end
      end
  end.

(** signature.c:679-761 cms_append_signature: the structure after adding a signer *)
Definition append_signer (c : cms) (inter : list cert) (x : cert) (s : signer) : cms :=
  mkCms (cs_type c) (cs_content c) (cs_signers c ++ [mkSigner (si_id s) (Some x) (si_time s)])
    (cs_certs c ++ inter ++ [x]).
