(** Vocabulary of C78. *)
From Verif Require Import Base Image KeyFile Hex Semver Manifest Bundle Signature Resign Recipients.
Open Scope list_scope.

(** What is assumed of CMS_encrypt and CMS_decrypt.  [fits c k]: [k] is the private key of the
    certificate [c]. *)
Record honest_box (X : cms_box) (cr : crypto) (fits : cert -> key -> Prop) : Prop := {
  (* sealed data is an enveloped CMS with its content inside *)
  hb_enveloped : forall cs m e, seal X cs m = Some e -> cm_enveloped cr e = true /\ cm_detached cr e = Some false;
  (* each recipient gets the content, with or without naming the own certificate *)
  hb_opens : forall cs m e c k, seal X cs m = Some e -> In c cs -> fits c k -> unseal X k None e = Some m /\ unseal X k (Some c) e = Some m;
  (* nobody else does *)
  hb_secret : forall cs m e k c, seal X cs m = Some e -> (forall x, In x cs -> ~ fits x k) -> unseal X k c e <> Some m
}.

(** the file named [n] is readable and consists of certificates, at least one *)
Definition cert_file (files : string -> option (list pem)) (n : string) : Prop :=
  exists cs, cs <> [] /\ files n = Some (map PCert cs).

Definition mark_encrypted (r : res bundle) : res bundle :=
  match r with
  | Ok b => Ok (mkBundle (b_remote b) (b_size b) (b_sig b) true (b_disabled b) (b_sig_verified b) (b_payload_verified b)
                  (b_exclusive b) (b_manifest b) (b_mounted b))
  | r => r
  end.
