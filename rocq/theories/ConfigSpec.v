(** Vocabulary for the properties of the system configuration (C29-C31, C47). *)
From Coq Require Export Relations.
From Verif Require Import Base KeyFile.

(** ** bundle-formats *)

Inductive ftoken := FSet (f : N) | FAdd (f : N) | FDel (f : N).
(** the tokens which may be used; formats are numbered plain 0, verity 1, crypt 2 *)
Definition ftokens : list (string * ftoken) :=
  [("plain", FSet 0); ("verity", FSet 1); ("crypt", FSet 2);
   ("+plain", FAdd 0); ("+verity", FAdd 1); ("+crypt", FAdd 2);
   ("-plain", FDel 0); ("-verity", FDel 1); ("-crypt", FDel 2)].
Definition is_ftoken (w : string) (t : ftoken) : Prop := In (w, t) ftokens.
(** the words of an option value *)
Definition words (s : string) : list string := filter (fun w => negb (String.eqb w "")) (split_on " " s).
Definition is_fset (t : ftoken) : Prop := match t with FSet _ => True | _ => False end.
(** effect of a list of modifications on one format: the last one counts *)
Fixpoint modified (toks : list ftoken) (f : N) (before : bool) : bool :=
  match toks with
  | [] => before
  | FAdd g :: r => modified r f (if (f =? g)%N then true else before)
  | FDel g :: r => modified r f (if (f =? g)%N then false else before)
  | FSet _ :: r => modified r f before
  end.

(** ** parents *)

(** the parent link as written in the file; an empty value counts as no value *)
Definition file_string (kf : keyfile) (g k : string) : option string :=
  match kf_get kf g k with Some EmptyString => None | o => o end.
Definition file_parent (kf : keyfile) (child parent : string) : Prop :=
  file_string kf ("slot." ++ child) "parent" = Some parent.
Definition file_ancestor (kf : keyfile) : string -> string -> Prop := clos_trans string (file_parent kf).
(** a chain of [n] parent links *)
Fixpoint parent_chain (kf : keyfile) (n : nat) (a b : string) : Prop :=
  match n with
  | O => a = b
  | S n => exists c, file_parent kf a c /\ parent_chain kf n c b
  end.

(** ** options (docs/reference.rst) *)

Definition system_keys (bootloader : option string) : list string :=
  ["compatible"; "min-bundle-version"; "bootloader"; "boot-attempts"; "boot-attempts-primary"; "max-bundle-download-size";
   "max-bundle-signature-size"; "mountprefix"; "activate-installed"; "variant-dtb"; "variant-file"; "variant-name";
   "prevent-late-fallback"; "data-directory"; "statusfile"; "bundle-formats"; "perform-pre-check"] ++
  (if opt_is bootloader "barebox" then ["barebox-statename"; "barebox-dtbpath"]
   else if opt_is bootloader "grub" then ["grubenv"]
   else if opt_is bootloader "efi" then ["efi-use-bootnext"] else []).
Definition handler_keys (bootloader : option string) : list string :=
  ["system-info"; "pre-install"; "post-install"] ++ (if opt_is bootloader "custom" then ["bootloader-custom-backend"] else []).
Definition slot_keys (bootloader : option string) (type : string) : list string :=
  ["description"; "device"; "type"; "extra-mkfs-opts"; "bootname"; "parent"; "allow-mounted"; "readonly"; "install-same";
   "force-install-same"; "ignore-checksum"; "extra-mount-opts"; "resize"] ++
  (if String.eqb type "boot-mbr-switch" || String.eqb type "boot-gpt-switch" || String.eqb type "boot-raw-fallback"
   then ["region-start"; "region-size"] else []) ++
  (if String.eqb type "boot-emmc" then ["size-limit"] else []) ++
  (if opt_is bootloader "efi" then ["efi-loader"; "efi-cmdline"] else []).
Definition section_keys : list (string * list string) :=
  [("keyring", ["path"; "directory"; "check-crl"; "allow-partial-chain"; "use-bundle-signing-time"; "check-purpose"; "allowed-signer-cns"]);
   ("casync", ["storepath"; "tmppath"; "install-args"; "use-desync"]);
   ("streaming", ["sandbox-user"; "tls-cert"; "tls-key"; "tls-ca"; "send-headers"]);
   ("polling", ["inhibit-files"; "candidate-criteria"; "install-criteria"; "reboot-criteria"; "url"; "interval-sec"; "max-interval-sec"; "reboot-cmd"]);
   ("encryption", ["key"; "cert"]);
   ("autoinstall", ["path"])].
Definition log_keys := ["filename"; "format"; "events"; "max-size"; "max-files"].
Definition artifacts_keys := ["description"; "path"; "type"; "parent-class"].

(** the group [g] is a documented section in which exactly the keys in [l] may be used *)
Inductive known_group (kf : keyfile) : string -> list string -> Prop :=
| KSystem : known_group kf "system" (system_keys (file_string kf "system" "bootloader"))
| KHandlers : known_group kf "handlers" (handler_keys (file_string kf "system" "bootloader"))
| KSection g l : In (g, l) section_keys -> known_group kf g l
| KLog n : known_group kf ("log." ++ n) log_keys
| KSlot cls idx : no_char "." cls = true -> no_char "." idx = true ->
    known_group kf ("slot." ++ cls ++ "." ++ idx)
      (slot_keys (file_string kf "system" "bootloader")
        (match file_string kf ("slot." ++ cls ++ "." ++ idx) "type" with Some t => t | None => "raw" end))
| KArtifacts n : no_char "." n = true -> known_group kf ("artifacts." ++ n) artifacts_keys.

(** boolean options *)
Definition file_bool (kf : keyfile) (g k : string) (default : bool) : bool :=
  match kf_get kf g k with
  | Some v => String.eqb v "true" || String.eqb v "1"
  | None => default
  end.

(** ** sizes: suffix and power of 1024 *)
Definition size_suffixes : list (string * N) :=
  [("", 0%N); ("K", 1%N); ("k", 1%N); ("M", 2%N); ("m", 2%N); ("G", 3%N); ("g", 3%N); ("T", 4%N); ("t", 4%N)].
