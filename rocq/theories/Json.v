(** JSON: "rauc info" and "rauc status" with --output-format=json, json-pretty and json-2 (src/main.c), and
    the event log formats json and json-pretty (src/event_log.c).  The text is made by json-glib's generator,
    which is a parameter (see JsonSpec.v); the trees rauc builds are modelled here. *)
From Verif Require Import Base KeyFile Image Manifest StatusFile ShellOut.
From Verif Require DbusInstall LogText.
Open Scope string_scope.

Inductive json := JNull | JBool (b : bool) | JStr (s : string) | JInt (z : Z) | JArr (l : list json) | JObj (l : list (string * json)).

(** json_builder_add_string_value: NULL becomes null *)
Definition jopt (o : option string) : json := match o with Some s => JStr s | None => JNull end.
(** json_builder_begin_object .. end_object: a member set twice keeps the second value *)
Definition jobj (l : list (string * json)) : json :=
  JObj (fold_left (fun d (kv : string * json) => assoc_set (fst kv) (snd kv) d) l []).
(** main.c:1171-1195 strv_to_json_array, ptrarray_to_json_array *)
Definition jstrs (l : list string) : json := JArr (map JStr l).
Definition jlist1 (k : string) (l : list string) : list (string * json) := match l with [] => [] | _ => [(k, jstrs l)] end.

(** main.c:1233-1285 one image.  Simplified: a NULL string array and an empty one are both []. *)
Definition image_json (i : image) : json :=
  jobj [(im_class i, jobj (
    [("artifact", jopt (im_artifact i)); ("variant", jopt (im_variant i)); ("filename", jopt (im_filename i));
     ("type", jopt (im_type i)); ("checksum", jopt (im_digest i)); ("size", JInt (im_size i));
     ("hooks", jstrs (flagged [(im_pre i, "pre-install"); (im_install i, "install"); (im_post i, "post-install")]));
     ("adaptive", jstrs (im_adaptive i))]
    ++ jlist1 "convert" (im_convert i) ++ jlist1 "converted" (im_converted i)))].

(** main.c:1198-1299 info_formatter_json_base; [hash]: manifest->hash *)
Definition info_json (m : manifest) (hash : option string) : json :=
  jobj [("compatible", jopt (mf_compatible m)); ("version", jopt (mf_version m)); ("description", jopt (mf_description m));
        ("build", jopt (mf_build m)); ("format", JStr (format_str (mf_format m)));
        ("hooks", jstrs (flagged [(mf_install_check m, "install-check")])); ("hash", jopt hash);
        ("images", JArr (map image_json (mf_images m)))].

(** json_gvariant_serialize for the types of r_manifest_to_dict: dictionaries become objects, arrays arrays,
    a uint64 a signed number *)
Fixpoint of_gvariant (v : DbusInstall.gv) : json :=
  match v with
  | DbusInstall.GS s => JStr s
  | DbusInstall.GT n => JInt (to_goffset n)
  | DbusInstall.GL l => jstrs l
  | DbusInstall.GD d => jobj ((fix go (d : list (string * DbusInstall.gv)) : list (string * json) :=
                                match d with [] => [] | (k, x) :: r => (k, of_gvariant x) :: go r end) d)
  | DbusInstall.GA l => JArr ((fix go (l : list DbusInstall.gv) : list json :=
                                match l with [] => [] | x :: r => of_gvariant x :: go r end) l)
  end.
(** main.c:1311-1326 info_formatter_json_2 *)
Definition info_json2 (m : manifest) (hash : option string) : json := of_gvariant (DbusInstall.GD (DbusInstall.manifest_dict m hash)).

(** main.c:1867-1922 the members of "slot_status" (--detailed) *)
Definition state_json {T} (i : iso T) (r : rstat T) : json :=
  let o1 k (v : option string) := match v with Some s => [(k, JStr s)] | None => [] end in
  let stamp k (t : option T) (c : N) :=
    match t with Some t => [(k, jobj [("timestamp", JStr (iso_fmt i t)); ("count", JInt (Z.of_N c))])] | None => [] end in
  jobj ([("bundle", jobj (("compatible", jopt (rs_compatible r)) :: o1 "version" (rs_version r) ++ o1 "description" (rs_description r)
                            ++ o1 "build" (rs_build r) ++ o1 "hash" (rs_hash r)))]
        ++ match rs_digest r with Some d => [("checksum", jobj [("sha256", JStr d); ("size", JInt (rs_size r))])] | None => [] end
        ++ stamp "installed" (rs_installed r) (rs_icount r)
        ++ stamp "activated" (rs_activated r) (rs_acount r)
        ++ o1 "status" (rs_status r)).
(** main.c:1842-1926 one slot; a state that is not known aborts (slot.c r_slot_slotstate_to_str) *)
Definition slot_json {T} (i : iso T) (det : bool) (s : vslot T) : res json :=
  do st <- sstate_str (v_state s) ;;
  Ok (jobj [(v_name s, jobj (
    [("class", JStr (v_class s)); ("device", jopt (v_device s)); ("type", jopt (v_type s)); ("bootname", jopt (v_bootname s));
     ("state", JStr st); ("parent", jopt (v_parent s)); ("mountpoint", jopt (v_mount s));
     ("boot_status", match v_bootname s with Some _ => JStr (bstate_str (v_boot s)) | None => JNull end)]
    ++ match (if det then v_status s else None) with Some r => [("slot_status", state_json i r)] | None => [] end))]).
Fixpoint slots_json {T} (i : iso T) (det : bool) (l : list (vslot T)) : res (list json) :=
  match l with [] => Ok [] | s :: r => do a <- slot_json i det s ;; do b <- slots_json i det r ;; Ok (a :: b) end.
(** artifacts.c:655-707 r_artifacts_to_dict, serialised.  Simplified: the description of a repository is left out. *)
Definition inst_json (x : ainst) : json := jobj [("checksum", JStr (ai_checksum x)); ("references", jstrs (ai_refs x))].
Definition art_json (x : aart) : json := jobj [("name", JStr (aa_name x)); ("instances", JArr (map inst_json (aa_insts x)))].
Definition repo_json (x : arepo) : json :=
  let o1 k (v : option string) := match v with Some s => [(k, JStr s)] | None => [] end in
  jobj (("name", JStr (ar_name x)) :: o1 "path" (ar_path x) ++ o1 "type" (ar_type x) ++ o1 "parent-class" (ar_parent x)
        ++ [("artifacts", JArr (map art_json (ar_arts x)))]).
(** main.c:1810-1948 r_status_formatter_json *)
Definition status_json {T} (i : iso T) (det : bool) (c : cstatus T) : res json :=
  do l <- slots_json i det (c_slots c) ;;
  Ok (jobj [("compatible", jopt (c_compatible c)); ("variant", jopt (c_variant c)); ("system_version", jopt (c_version c));
            ("booted", jopt (c_bootslot c)); ("boot_primary", jopt (c_primary c)); ("slots", JArr l);
            ("artifact-repositories", JArr (map repo_json (c_repos c)))]).

(** event_log.c:111-139 event_log_format_fields_json; [ts]: now_formatted *)
Definition event_json (ts : string) (e : LogText.event) : json :=
  jobj (("TS", JStr ts) :: map (fun f : string * string => (fst f, JStr (snd f))) (LogText.fields e)).
(** main.c:1389-1406: what "rauc info" prints; [dumps]: what --dump-cert and --dump-recipients add; main.c:2178-2202 print_status: g_strchomp, "%s\n" *)
Definition info_text (gen : bool -> json -> string) (pretty : bool) (m : manifest) (hash : option string) (dumps : list string) : string :=
  (gen pretty (info_json m hash) ++ LogText.nl ++ List.fold_right (fun d s => (d ++ LogText.nl ++ s)%string) "" dumps)%string.
Definition info_text2 (gen : bool -> json -> string) (m : manifest) (hash : option string) : string :=
  (gen true (info_json2 m hash) ++ LogText.nl)%string.
Definition status_text {T} (gen : bool -> json -> string) (i : iso T) (pretty det : bool) (c : cstatus T) : res string :=
  do v <- status_json i det c ;; Ok (chomp (gen pretty v) ++ LogText.nl)%string.

(** event_log.c:322-345: the log file, one entry after the other *)
Definition json_log (gen : bool -> json -> string) (pretty : bool) (l : list (string * LogText.event)) : string :=
  fold_right (fun x s => (gen pretty (event_json (fst x) (snd x)) ++ LogText.nl ++ s)%string) "" l.
