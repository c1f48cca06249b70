(** Vocabulary of C84: what the JSON values of rauc say. *)
From Verif Require Import Base Image Manifest StatusFile ShellOut ShellOutSpec Json JsonSpec.
From Verif Require DbusInstall LogText LogTextSpec.
Open Scope string_scope.

(** the words of a list of flags which are set *)
Definition set_flags (l : list (string * bool)) : json := strings (map fst (filter snd l)).
Definition has_list (v : json) (k : string) (l : list string) : Prop := match l with [] => has_not v k | _ => has v k (strings l) end.
(** one image of "rauc info" *)
Definition image_told (i : image) (j : json) : Prop :=
  exists d, j = JObj [(im_class i, d)] /\
  has d "artifact" (str_or_null (im_artifact i)) /\ has d "variant" (str_or_null (im_variant i)) /\
  has d "filename" (str_or_null (im_filename i)) /\ has d "type" (str_or_null (im_type i)) /\
  has d "checksum" (str_or_null (im_digest i)) /\ has d "size" (JInt (im_size i)) /\
  has d "hooks" (set_flags [("pre-install", im_pre i); ("install", im_install i); ("post-install", im_post i)]) /\
  has d "adaptive" (strings (im_adaptive i)) /\ has_list d "convert" (im_convert i) /\ has_list d "converted" (im_converted i).

(** one image of the format json-2 *)
Definition image_told2 (i : image) (d : json) : Prop :=
  has d "slot-class" (JStr (im_class i)) /\ has_opt d "artifact" (im_artifact i) /\ has_opt d "variant" (im_variant i) /\
  has_opt d "filename" (im_filename i) /\ has_opt d "type" (im_type i) /\ has_opt d "checksum" (im_digest i) /\
  ((0 < im_size i < 2 ^ 63)%Z -> has d "size" (JInt (im_size i))) /\
  has d "hooks" (set_flags [("pre-install", im_pre i); ("install", im_install i); ("post-install", im_post i)]) /\
  has_list d "adaptive" (im_adaptive i) /\ has_list d "convert" (im_convert i) /\ has_list d "converted" (im_converted i).
(** a string at a path: there exactly if it is known *)
Definition told (v : json) (p : list string) (o : option string) : Prop :=
  match o with Some s => has_at v p (JStr s) | None => forall x, ~ has_at v p x end.

(** the recorded status of a slot *)
Definition state_told {T} (i : iso T) (r : rstat T) (w : json) : Prop :=
  (exists b, has w "bundle" b /\ has b "compatible" (str_or_null (rs_compatible r)) /\ has_opt b "version" (rs_version r) /\
     has_opt b "description" (rs_description r) /\ has_opt b "build" (rs_build r) /\ has_opt b "hash" (rs_hash r)) /\
  (match rs_digest r with
   | Some g => has_at w ["checksum"; "sha256"] (JStr g) /\ has_at w ["checksum"; "size"] (JInt (rs_size r))
   | None => has_not w "checksum" end) /\
  (match rs_installed r with
   | Some t => has_at w ["installed"; "timestamp"] (JStr (iso_fmt i t)) /\ has_at w ["installed"; "count"] (JInt (Z.of_N (rs_icount r)))
   | None => has_not w "installed" end) /\
  (match rs_activated r with
   | Some t => has_at w ["activated"; "timestamp"] (JStr (iso_fmt i t)) /\ has_at w ["activated"; "count"] (JInt (Z.of_N (rs_acount r)))
   | None => has_not w "activated" end) /\
  has_opt w "status" (rs_status r).
(** one slot; [st]: the recorded status if it is asked for and known; [mount]: where it is mounted *)
Definition slot_told {T} (i : iso T) (s : vslot T) (mount : option string) (st : option (rstat T)) (j : json) : Prop :=
  exists d, j = JObj [(v_name s, d)] /\
  has d "class" (JStr (v_class s)) /\ has d "device" (str_or_null (v_device s)) /\ has d "type" (str_or_null (v_type s)) /\
  has d "bootname" (str_or_null (v_bootname s)) /\ has d "state" (JStr (state_text (v_state s))) /\
  has d "parent" (str_or_null (v_parent s)) /\ has d "mountpoint" (str_or_null mount) /\
  has d "boot_status" (match v_bootname s with Some _ => JStr (boot_text (v_boot s)) | None => JNull end) /\
  match st with Some r => exists w, has d "slot_status" w /\ state_told i r w | None => has_not d "slot_status" end.
(** artifact repositories *)
Definition instance_told (x : ainst) (d : json) : Prop := has d "checksum" (JStr (ai_checksum x)) /\ has d "references" (strings (ai_refs x)).
Definition artifact_told (x : aart) (d : json) : Prop :=
  has d "name" (JStr (aa_name x)) /\ exists l, has d "instances" (JArr l) /\ Forall2 instance_told (aa_insts x) l.
Definition repo_told (x : arepo) (d : json) : Prop :=
  has d "name" (JStr (ar_name x)) /\ has_opt d "path" (ar_path x) /\ has_opt d "type" (ar_type x) /\ has_opt d "parent-class" (ar_parent x) /\
  exists l, has d "artifacts" (JArr l) /\ Forall2 artifact_told (ar_arts x) l.

(** an entry of the event log; [ts]: its time *)
Definition event_told (ts : string) (e : LogText.event) (v : json) : Prop :=
  has v "TS" (JStr ts) /\ (exists m, has v "MESSAGE" (JStr m) /\ LogTextSpec.line_says e m) /\
  match e with
  | LogText.EvStarted t => has v "RAUC_EVENT_TYPE" (JStr "install") /\ has v "TRANSACTION_ID" (JStr t)
  | LogText.EvDone t _ m =>
      has v "RAUC_EVENT_TYPE" (JStr "install") /\ has v "TRANSACTION_ID" (JStr t) /\
      match m with
      | Some f => has v "BUNDLE_HASH" (JStr (or_empty (LogText.mf_hash f))) /\
                  has v "BUNDLE_DESCRIPTION" (JStr (or_empty (LogText.mf_description f))) /\
                  has v "BUNDLE_VERSION" (JStr (or_empty (LogText.mf_version f)))
      | None => has v "BUNDLE_HASH" (JStr "") /\ has v "BUNDLE_DESCRIPTION" (JStr "") /\ has v "BUNDLE_VERSION" (JStr "")
      end
  | LogText.EvActive s b h =>
      has v "RAUC_EVENT_TYPE" (JStr "mark") /\ has v "SLOT_NAME" (JStr s) /\ has v "SLOT_BOOTNAME" (JStr (or_empty b)) /\
      has v "BUNDLE_HASH" (JStr (or_empty h))
  | LogText.EvGood s b | LogText.EvBad s b =>
      has v "RAUC_EVENT_TYPE" (JStr "mark") /\ has v "SLOT_NAME" (JStr s) /\ has v "SLOT_BOOTNAME" (JStr (or_empty b))
  | LogText.EvMessage t _ => has v "RAUC_EVENT_TYPE" (JStr t)
  end.
