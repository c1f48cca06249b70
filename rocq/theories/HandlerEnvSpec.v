(** Vocabulary of C65: what a program finds in its environment, and what handlers and hooks should find there. *)
From Verif Require Import Base Slot Image KeyFile EnvKey Semver Manifest Handlers Install InstallSpec ShellOut ShellOutSpec HandlerEnv.
From Verif Require Context.

(** getenv (3): the value of the first entry with this name *)
Fixpoint getenv (k : string) (env : environ) : option string :=
  match env with
  | [] => None
  | e :: r => match at_eq e with
              | Some (n, v) => if String.eqb n k then Some v else getenv k r
              | None => getenv k r
              end
  end.
Definition a_name (k : string) : Prop := no_char "=" k = true.

(** the first one that is there *)
Fixpoint first_of (l : list (option string)) : option string :=
  match l with
  | [] => None
  | Some v :: _ => Some v
  | None :: r => first_of r
  end.

(** [s] is the slot that was chosen for its class *)
Definition is_target (tg : target_group) (s : slot) : bool :=
  match tg (sl_class s) with Some t => String.eqb (sl_name s) (sl_name t) | None => false end.
(** a target group assigns slots of the class, from the table *)
Definition wf_group (slots : list slot) (tg : target_group) : Prop :=
  forall c s, tg c = Some s -> In s slots /\ sl_class s = c.
(** the first image for a class, whatever its variant *)
Definition first_image (imgs : list image) (c : string) : option image := find (fun i => String.eqb (im_class i) c) imgs.

(** ** the documented variables (docs/reference.rst, Custom Handlers) and their values *)
Definition slot_rows (i : nat) (s : slot) : list (string * string) :=
  [("RAUC_SLOT_NAME_" ++ num i, sl_name s);
   ("RAUC_SLOT_CLASS_" ++ num i, sl_class s);
   ("RAUC_SLOT_TYPE_" ++ num i, sl_type s);
   ("RAUC_SLOT_DEVICE_" ++ num i, sl_device s);
   ("RAUC_SLOT_BOOTNAME_" ++ num i, or_empty (sl_bootname s));
   ("RAUC_SLOT_PARENT_" ++ num i, or_empty (sl_parent s))]%string.
Definition image_rows (i : nat) (img : image) : list (string * string) :=
  [("RAUC_IMAGE_NAME_" ++ num i, or_empty (im_filename img));
   ("RAUC_IMAGE_DIGEST_" ++ num i, or_empty (im_digest img));
   ("RAUC_IMAGE_CLASS_" ++ num i, im_class img)]%string.
Definition system_rows (c : hctx) : list (string * string) :=
  [("RAUC_SYSTEM_CONFIG", hx_config c);
   ("RAUC_SYSTEM_COMPATIBLE", or_empty (hx_compatible c));
   ("RAUC_SYSTEM_VARIANT", or_empty (hx_variant c));
   ("RAUC_SYSTEM_VERSION", or_empty (hx_version c));
   ("RAUC_CURRENT_BOOTNAME", hx_bootslot c);
   ("RAUC_MOUNT_PREFIX", hx_mount_prefix c)].
Definition bundle_rows (source transaction : string) : list (string * string) :=
  [("RAUC_BUNDLE_MOUNT_POINT", source); ("RAUC_UPDATE_SOURCE", source); ("RAUC_TRANSACTION_ID", transaction)].

(** the numbers, starting with 1, of the slots which are targets *)
Fixpoint target_numbers (tg : target_group) (i : nat) (slots : list slot) : list nat :=
  match slots with
  | [] => []
  | s :: r => (if is_target tg s then [i] else []) ++ target_numbers tg (S i) r
  end.
Definition list_rows (tg : target_group) (slots : list slot) : list (string * string) :=
  [("RAUC_SLOTS", words (map num (seq 1 (List.length slots))));
   ("RAUC_TARGET_SLOTS", words (map num (target_numbers tg 1 slots)))].

(** everything rauc sets, whatever the variables were before *)
Definition told (c : hctx) (source : string) (m : manifest) (transaction : string) (slots : list slot) (tg : target_group)
  : list (string * string) :=
  system_rows c ++ bundle_rows source transaction ++
  numbered (fun i s => (if is_target tg s then match first_image (mf_images m) (sl_class s) with Some img => image_rows i img | None => [] end else [])
                       ++ slot_rows i s) 1 slots ++
  list_rows tg slots.

(** the hook's *)
Definition hook_rows (c : hctx) (m : manifest) : list (string * string) :=
  [("RAUC_SYSTEM_COMPATIBLE", or_empty (hx_compatible c));
   ("RAUC_SYSTEM_VARIANT", or_empty (hx_variant c));
   ("RAUC_SYSTEM_VERSION", or_empty (hx_version c));
   ("RAUC_MF_COMPATIBLE", or_empty (mf_compatible m));
   ("RAUC_MF_VERSION", or_empty (mf_version m));
   ("RAUC_MF_BUILD", or_empty (mf_build m));
   ("RAUC_MOUNT_PREFIX", hx_mount_prefix c)].

(** an environment made by rauc for its handlers *)
Definition handler_environment (c : hctx) (base : environ) (source : string) (m : manifest) (transaction : string)
    (slots : list slot) (tg : target_group) (env : environ) : Prop :=
  unique_names slots /\ wf_group slots tg /\ (forall k v, In (k, v) (hx_sysinfo c) -> a_name k) /\
  prepare_environment c base source m transaction slots tg = Ok env.
(** the environment with everything from its source: the system's configuration, the system-info handler and the
    selection of the target slots *)
Definition real_environment (realdev : string -> string) (bootslot : string) (per_slot : bool) (st : string -> slot_state) (info : string -> sel_status)
    (h : Context.sihandler) (c : hctx) (base : environ) (source : string) (m : manifest) (transaction : string) (slots : list slot) (env : environ) : Prop :=
  unique_names slots /\ wf_parents slots /\ determine_slot_states realdev (Some bootslot) slots = Ok st /\ Context.system_info h = Ok (hx_sysinfo c) /\
  prepare_environment c base source m transaction slots (determine_target_group per_slot st info slots) = Ok env.

(** [t] is nothing, or another word *)
Definition nothing_or_more (t : string) : Prop := t = "" \/ exists r, t = (" " ++ r)%string.
(** what the user sees for a line *)
Definition shown_as (line : string) (s : shown) : Prop := parse_handler_output line = Some s.
(** the words of an optional string of arguments *)
Definition words_of (split : string -> option (list string)) (o : option string) (ws : list string) : Prop :=
  match o with None => ws = [] | Some s => split s = Some ws end.
