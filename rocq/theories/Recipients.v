(** Model of rauc encrypt: signature.c:317-367 load_certs_from_file, 1757-1823 cms_encrypt,
    1825-1906 cms_decrypt, bundle.c:1692-1739 encrypt_bundle, main.c:865-918 encrypt_start.
    OpenSSL's CMS_encrypt and CMS_decrypt are parameters. *)
From Verif Require Import Base Image KeyFile Hex Semver Manifest Bundle Signature Resign.
Open Scope list_scope.

(** A PEM file as PEM_read_bio_X509 sees it: certificates and things that cannot be parsed
    (blocks of other types are skipped by it and not listed) *)
Inductive pem := PCert (c : cert) | PBroken.

(** signature.c:339-362: reading up to the end of the file; at the end there must be at least
    one certificate *)
Fixpoint read_certs (certs : list cert) (blocks : list pem) : option (list cert) :=
  match blocks with
  | [] => match certs with [] => None | _ => Some certs end
  | PCert c :: r => read_certs (certs ++ [c]) r
  | PBroken :: _ => None
  end.
(** signature.c:317-367 load_certs_from_file; None: the file cannot be opened *)
Definition load_certs_from_file (file : option (list pem)) : option (list cert) :=
  match file with
  | None => None
  | Some blocks => read_certs [] blocks
  end.

(** private keys *)
Definition key := N.
(** [seal] = CMS_encrypt with AES-256-CBC and i2d_CMS_bio, [unseal k c] = CMS_decrypt with
    the private key [k] and, if configured, the certificate [c] *)
Record cms_box := mkBox {
  seal : list cert -> bytes -> option bytes;
  unseal : key -> option cert -> bytes -> option bytes
}.

(** signature.c:1774-1784: the certificates of all files *)
Fixpoint load_recipients (files : string -> option (list pem)) (names : list string) (certs : list cert) : option (list cert) :=
  match names with
  | [] => Some certs
  | n :: r => match load_certs_from_file (files n) with
              | None => None
              | Some cs => load_recipients files r (certs ++ cs)
              end
  end.
(** signature.c:1757-1823 cms_encrypt *)
Definition cms_encrypt (X : cms_box) (files : string -> option (list pem)) (names : list string) (content : bytes) : option bytes :=
  match load_recipients files names [] with
  | None => None
  | Some certs => match seal X certs content with
                  | Some [] => None                                      (* "Read zero bytes" *)
                  | r => r
                  end
  end.

(** signature.c:1825-1906 cms_decrypt.  [cert]: None: none configured, Some c: what loading it
    gave; [k]: what loading the private key gave *)
Definition cms_decrypt (X : cms_box) (enveloped : bytes -> bool) (cert : option (option cert)) (k : option key) (content : bytes)
  : option bytes :=
  match cert with
  | Some None => None
  | _ => match k with
         | None => None
         | Some k =>
             if negb (enveloped content) then None
             else match unseal X k (match cert with Some c => c | None => None end) content with
                  | Some [] => None
                  | r => r
                  end
         end
  end.

(** the system [cr] with this decryption key and certificate *)
Definition with_key (cr : crypto) (X : cms_box) (cert : option (option cert)) (k : option key) : crypto :=
  mkCrypto (cm_detached cr) (cm_enveloped cr) (cms_decrypt X (cm_enveloped cr) cert k) (cm_verify cr) (cm_verify_fd cr)
    (cm_unverified cr) (cm_load cr) (cm_inner cr) (cm_verity cr).

(** bundle.c:1692-1739 encrypt_bundle; [copy], [app]: how far copying and appending get *)
Definition encrypt_bundle (X : cms_box) (files : string -> option (list pem)) (names : list string) (copy app : outcome)
    (fs : rfs) (inp out : string) (b : bundle) : bool * rfs :=
  match b_manifest b with
  | Some m =>
      if bformat_eqb (mf_format m) F_CRYPT then
        derive (mkRenv true copy (fun _ => cms_encrypt X files names (b_sig b)) app) fs inp out (b_size b)
      else (false, fs)
  | None => (false, fs)
  end.

(** main.c:865-918 encrypt_start (without the number of arguments); [recipients]: --to *)
Definition encrypt_start (cr : crypto) (cf : bconf) (X : cms_box) (files : string -> option (list pem)) (recipients : option (list string))
    (copy app : outcome) (excl access : bool) (fs : rfs) (inp out : string) : bool * rfs :=
  match recipients with
  | None => (false, fs)
  | Some names =>
      match fs inp with
      | None => (false, fs)
      | Some f =>
          match check_bundle cr cf (mkBparams true false) false f excl access with
          | Ok b => encrypt_bundle X files names copy app fs inp out b
          | _ => (false, fs)
          end
      end
  end.
