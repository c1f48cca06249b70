(** Vocabulary of C69. *)
From Verif Require Import Base KeyFile Image Manifest DbusInstall.

(** the value a dictionary message has for a key: the last one counts *)
Definition value_of (l : list (string * val)) (k : string) : option val := assoc k (rev l).
(** the request [a] says the same as the entry [k] = [v] *)
Definition honoured (a : iargs) (k : string) (v : val) : Prop :=
  (k = "ignore-compatible"%string /\ v = VB (a_ignore_compatible a)) \/
  (k = "ignore-version-limit"%string /\ v = VB (a_ignore_version_limit a)) \/
  (k = "transaction-id"%string /\ exists s, v = VS s /\ a_transaction a = Some s) \/
  (k = "require-manifest-hash"%string /\ exists s, v = VS s /\ a_manifest_hash a = Some s) \/
  (k = "tls-cert"%string /\ exists s, v = VS s /\ a_tls_cert a = Some s) \/
  (k = "tls-key"%string /\ exists s, v = VS s /\ a_tls_key a = Some s) \/
  (k = "tls-ca"%string /\ exists s, v = VS s /\ a_tls_ca a = Some s) \/
  (k = "tls-no-verify"%string /\ v = VB (a_tls_no_verify a)) \/
  (k = "http-headers"%string /\ exists s, v = VAS s /\ a_http_headers a = Some s).
(** an option of this name with a value of the right type *)
Definition supported (k : string) (v : val) : Prop := exists a, honoured a k v.
(** ... which InspectBundle has as well *)
Definition access_key (k : string) : Prop := In k ["tls-cert"; "tls-key"; "tls-ca"; "tls-no-verify"; "http-headers"]%string.

(** the events the main loop of client [i] dispatched *)
Fixpoint dispatched (l : list step) (w : world) (i : nat) : list event :=
  match l with
  | [] => []
  | s :: r =>
      match s with
      | SDispatch j n => if Nat.eqb j i then match w_clients w i with CWaiting _ q => firstn n q | _ => [] end else []
      | _ => []
      end ++ match do_step w s with Some w' => dispatched r w' i | None => [] end
  end.
(** what an event means for the exit code *)
Definition tells (e : event) (c : Z) : Prop :=
  match e with EvChanged => False | EvInvalidated => c = 2%Z | EvCompleted _ r => c = r | EvSigint => c = 3%Z end.

(** a value below nested dictionaries *)
Fixpoint at_path (p : list string) (v : gv) : option gv :=
  match p with
  | [] => Some v
  | k :: r => match v with GD d => match assoc k d with Some x => at_path r x | None => None end | _ => None end
  end.
Definition str_opt (v : option string) : option gv := match v with Some s => Some (GS s) | None => None end.
Definition list_opt (l : list string) : option gv := match l with [] => None | _ => Some (GL l) end.
(** the dictionary of one image says what the manifest says *)
Definition image_says (i : image) (v : gv) : Prop :=
  at_path ["slot-class"%string] v = Some (GS (im_class i)) /\
  at_path ["artifact"%string] v = str_opt (im_artifact i) /\
  at_path ["variant"%string] v = str_opt (im_variant i) /\
  at_path ["filename"%string] v = str_opt (im_filename i) /\
  at_path ["type"%string] v = str_opt (im_type i) /\
  at_path ["checksum"%string] v = str_opt (im_digest i) /\
  ((0 < im_size i < 2 ^ 63)%Z -> at_path ["size"%string] v = Some (GT (Z.to_N (im_size i)))) /\ (im_size i = 0%Z -> at_path ["size"%string] v = None) /\
  (exists h, at_path ["hooks"%string] v = Some (GL h) /\ NoDup h /\
     (In "pre-install"%string h <-> im_pre i = true) /\ (In "install"%string h <-> im_install i = true) /\ (In "post-install"%string h <-> im_post i = true) /\
     forall x, In x h -> In x ["pre-install"; "install"; "post-install"]%string) /\
  at_path ["adaptive"%string] v = list_opt (im_adaptive i) /\
  at_path ["convert"%string] v = list_opt (im_convert i) /\
  at_path ["converted"%string] v = list_opt (im_converted i).
(** hash tables have no key twice *)
Definition meta_ok (m : manifest) : Prop := NoDup (map fst (mf_meta m)) /\ Forall (fun g => NoDup (map fst (snd g))) (mf_meta m).
Fixpoint keys_unique (v : gv) : Prop :=
  match v with
  | GD d => NoDup (map fst d) /\ (fix all (d : list (string * gv)) : Prop := match d with [] => True | (_, x) :: r => keys_unique x /\ all r end) d
  | GA l => (fix all (l : list gv) : Prop := match l with [] => True | x :: r => keys_unique x /\ all r end) l
  | _ => True
  end.
(** two manifests which differ at most in the key of the encrypted payload *)
Definition same_but_key (m m' : manifest) : Prop := exists k, m' = mkManifest (mf_compatible m) (mf_version m) (mf_description m) (mf_build m) (mf_min_rauc m) (mf_format m) (mf_format_explicit m)
  (mf_verity_hash m) (mf_verity_salt m) (mf_verity_size m) k (mf_handler m) (mf_handler_args m) (mf_hook m) (mf_install_check m) (mf_images m) (mf_meta m).
