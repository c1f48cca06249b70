(** Model of the events rauc logs about installations, markings and the service, and of their readable form in log files
    (src/install.c:1267-1328, 1527-1683, src/mark.c:89-132, src/event_log.c:46-60, 160-230, 352).

    Simplifications: the MESSAGE_ID, PRIORITY, CODE_* and GLIB_DOMAIN fields, which the readable form does not show, are left out;
    time stamps are arbitrary strings of 20 characters; JSON is left to json-glib. *)
From Verif Require Import Base.
Open Scope list_scope.

Definition nl : string := String "010" EmptyString.

(** install.c:1305-1317: the ways an installation ends.  [text]: error->message *)
Inductive ending := Succeeded | Rejected (text : string) | FailedWith (text : string).
(** the fields of the manifest *)
Record mfields := mkMfields { mf_hash : option string; mf_description : option string; mf_version : option string }.

Inductive event :=
| EvStarted (txn : string)                                            (* install.c:1272-1280 *)
| EvDone (txn : string) (e : ending) (m : option mfields)             (* install.c:1287-1328 *)
| EvActive (slot : string) (bootname hash : option string)            (* mark.c:93-105 *)
| EvGood (slot : string) (bootname : option string)                   (* mark.c:107-118 *)
| EvBad (slot : string) (bootname : option string)                    (* mark.c:120-131 *)
| EvMessage (type text : string).                                     (* event_log.c:46-60 *)

Definition or_empty (o : option string) : string := match o with Some s => s | None => "" end.

Definition message (e : event) : string :=
  match e with
  | EvStarted t => "Installation " ++ stake 8 t ++ " started"
  | EvDone t Succeeded _ => "Installation " ++ stake 8 t ++ " succeeded"
  | EvDone t (Rejected x) _ => "Installation " ++ stake 8 t ++ " rejected: " ++ x
  | EvDone t (FailedWith x) _ => "Installation " ++ stake 8 t ++ " failed: " ++ x
  | EvActive s _ _ => "Marked slot " ++ s ++ " as active"
  | EvGood s _ => "Marked slot " ++ s ++ " as good"
  | EvBad s _ => "Marked slot " ++ s ++ " as bad"
  | EvMessage _ x => x
  end%string.

(** the fields, in order *)
Definition fields (e : event) : list (string * string) :=
  match e with
  | EvStarted t => [("RAUC_EVENT_TYPE", "install"); ("TRANSACTION_ID", t); ("MESSAGE", message e)]
  | EvDone t _ m =>
      [("MESSAGE", message e); ("RAUC_EVENT_TYPE", "install");
       ("BUNDLE_HASH", match m with Some m => or_empty (mf_hash m) | None => "" end);
       ("BUNDLE_DESCRIPTION", match m with Some m => or_empty (mf_description m) | None => "" end);
       ("BUNDLE_VERSION", match m with Some m => or_empty (mf_version m) | None => "" end); ("TRANSACTION_ID", t)]
  | EvActive s b h => [("RAUC_EVENT_TYPE", "mark"); ("SLOT_NAME", s); ("SLOT_BOOTNAME", or_empty b); ("BUNDLE_HASH", or_empty h); ("MESSAGE", message e)]
  | EvGood s b | EvBad s b => [("RAUC_EVENT_TYPE", "mark"); ("SLOT_NAME", s); ("SLOT_BOOTNAME", or_empty b); ("MESSAGE", message e)]
  | EvMessage t _ => [("RAUC_EVENT_TYPE", t); ("MESSAGE", message e)]
  end%string.

(** event_log.c:192-221: the fields which are shown *)
Definition label (key : string) : option string :=
  if String.eqb key "TRANSACTION_ID" then Some "transaction ID"
  else if String.eqb key "BOOT_ID" then Some "boot ID"
  else if String.eqb key "BUNDLE_HASH" then Some "bundle hash"
  else if String.eqb key "BUNDLE_VERSION" then Some "bundle version"
  else if String.eqb key "SLOT_NAME" then Some "slot"
  else if String.eqb key "SLOT_BOOTNAME" then Some "bootname"
  else None%string.

Definition pad : string := "                      ".

(** event_log.c:160-230 event_log_format_fields_readable; [ts]: now_formatted *)
Definition readable (verbose : bool) (ts : string) (fs : list (string * string)) : string :=
  let first := (ts ++ ": " ++ match find (fun f => String.eqb (fst f) "MESSAGE") fs with Some f => snd f | None => "" end)%string in
  if verbose
  then fold_left (fun s f => match label (fst f) with Some l => (s ++ nl ++ pad ++ l ++ ": " ++ snd f)%string | None => s end) fs first
  else first.

(** event_log.c:340: one entry of the log file *)
Definition entry (verbose : bool) (x : string * event) : string := (readable verbose (fst x) (fields (snd x)) ++ nl)%string.
Definition log_text (verbose : bool) (l : list (string * event)) : string := fold_right (fun x s => (entry verbose x ++ s)%string) EmptyString l.

(** ** install.c:1527-1683 do_install_bundle, as far as its events, result and the mount go *)
Inductive ekind := KRejected | KCompat | KOther.
(** a step works, or fails with an error (its prefixes added) *)
Definition outcome := option (ekind * string).
Record attempt := mkAttempt {
  a_txn : string;
  a_mounts : outcome; a_check : outcome; a_hash : outcome; a_crypt : outcome; a_mount : outcome; a_group : outcome;
  a_pre : outcome; a_compat : outcome; a_version : outcome; a_handler : outcome; a_post : outcome;
  a_manifest : option mfields;        (* bundle->manifest after check_bundle; None for plain bundles *)
  a_mounted : option mfields;         (* .. after mount_bundle *)
  a_mount_left : bool                 (* a failed mount_bundle leaves bundle->mount_point set *)
}.

Definition done_event (txn : string) (e : outcome) (m : option mfields) : event :=
  EvDone txn (match e with None => Succeeded | Some (KRejected, x) | Some (KCompat, x) => Rejected x | Some (KOther, x) => FailedWith x end) m.

Fixpoint first_error (l : list outcome) : outcome := match l with [] => None | Some e :: _ => Some e | None :: r => first_error r end.

(** result, events, and whether umount_bundle was called *)
Definition do_install_bundle (a : attempt) : bool * list event * bool :=
  let out m e um := (match e with None => true | Some _ => false end, [EvStarted (a_txn a); done_event (a_txn a) e m], um) in
  match a_mounts a with
  | Some e => out None (Some e) false                                                        (* :1548-1553 *)
  | None => match a_check a with
  | Some e => out None (Some e) false                                                        (* :1560-1564 *)
  | None => match first_error [a_hash a; a_crypt a] with
  | Some e => out (a_manifest a) (Some e) false                                              (* :1566-1585 *)
  | None => match a_mount a with
  | Some e => out (a_manifest a) (Some e) (a_mount_left a)                                   (* :1587-1594 goto umount *)
  | None => out (a_mounted a) (first_error [a_group a; a_pre a; a_compat a; a_version a; a_handler a; a_post a]) true
  end end end end.
