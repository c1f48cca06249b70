(** Model of src/status_file.c.  GKeyFile: KeyFile.v.  Time stamps are abstract: [T] with
    the GLib functions that write and read them as parameters. *)
From Verif Require Import Base Slot KeyFile Manifest.

(** g_date_time_format (RAUC_FORMAT_ISO_8601) and g_date_time_new_from_iso8601 *)
Record iso (T : Type) := mkIso { iso_fmt : T -> string; iso_parse : string -> option T }.
Arguments mkIso {T}. Arguments iso_fmt {T}. Arguments iso_parse {T}.

(** include/slot.h:20-33 RaucSlotStatus.  Simplified: checksum.type is not modelled (it is
    always SHA256 when there is a digest). *)
Record rstat (T : Type) := mkRstat {
  rs_compatible : option string;
  rs_version : option string;
  rs_description : option string;
  rs_build : option string;
  rs_hash : option string;
  rs_status : option string;
  rs_digest : option string;
  rs_size : Z;                    (* goffset *)
  rs_txn : option string;         (* installed_txn *)
  rs_installed : option T;
  rs_icount : N;                  (* guint32 *)
  rs_activated : option T;
  rs_acount : N
}.
Arguments mkRstat {T}. Arguments rs_compatible {T}. Arguments rs_version {T}. Arguments rs_description {T}.
Arguments rs_build {T}. Arguments rs_hash {T}. Arguments rs_status {T}. Arguments rs_digest {T}. Arguments rs_size {T}.
Arguments rs_txn {T}. Arguments rs_installed {T}. Arguments rs_icount {T}. Arguments rs_activated {T}. Arguments rs_acount {T}.

(** g_new0 *)
Definition rstat0 {T} : rstat T := mkRstat None None None None None None None 0 None None 0 None 0.

(** g_key_file_get_uint64 with the error ignored *)
Definition get_u64 (kf : keyfile) (g k : string) : N :=
  match kf_get kf g k with
  | Some s => match strtoull_all s with Some n => n | None => 0 end
  | None => 0
  end.
(** status_file.c:44-57, 66-79 *)
Definition get_count (kf : keyfile) (g k : string) : N :=
  let c := get_u64 kf g k in if (2 ^ 32 - 1 <? c)%N then 0%N else c.

Definition get_stamp {T} (i : iso T) (kf : keyfile) (g k : string) : option T :=
  match kf_consume_opt kf g k with Some s => iso_parse i s | None => None end.

(** status_file.c:10-80 status_file_get_slot_status.  installed.transaction is not read. *)
Definition get_status {T} (i : iso T) (kf : keyfile) (g : string) : rstat T :=
  let str := kf_consume_opt kf g in
  let digest := str "sha256" in
  mkRstat (str "bundle.compatible") (str "bundle.version") (str "bundle.description") (str "bundle.build")
    (str "bundle.hash") (str "status")
    digest (match digest with Some _ => to_goffset (get_u64 kf g "size") | None => 0%Z end)
    None
    (get_stamp i kf g "installed.timestamp") (get_count kf g "installed.count")
    (get_stamp i kf g "activated.timestamp") (get_count kf g "activated.count").

(** goffset -> guint64 *)
Definition of_goffset (z : Z) : N := Z.to_N (z mod 2 ^ 64).

(** status_file.c:82-135 status_file_set_slot_status: every key is set or removed *)
Definition status_fields {T} (i : iso T) (r : rstat T) : list (string * option string) := [
  ("bundle.compatible", rs_compatible r);
  ("bundle.version", rs_version r);
  ("bundle.description", rs_description r);
  ("bundle.build", rs_build r);
  ("bundle.hash", rs_hash r);
  ("status", rs_status r);
  ("sha256", rs_digest r);
  ("size", match rs_digest r with Some _ => Some (print_num 10 (of_goffset (rs_size r))) | None => None end);
  ("installed.transaction", rs_txn r);
  ("installed.timestamp", option_map (iso_fmt i) (rs_installed r));
  ("installed.count", if (0 <? rs_icount r)%N then Some (print_num 10 (rs_icount r)) else None);
  ("activated.timestamp", option_map (iso_fmt i) (rs_activated r));
  ("activated.count", if (0 <? rs_acount r)%N then Some (print_num 10 (rs_acount r)) else None)
].
Definition set_or_remove (g : string) (kf : keyfile) (kv : string * option string) : keyfile :=
  match snd kv with Some s => kf_set kf g (fst kv) s | None => kf_remove_key kf g (fst kv) end.
Definition set_status {T} (i : iso T) (kf : keyfile) (g : string) (r : rstat T) : keyfile :=
  fold_left (set_or_remove g) (status_fields i r) kf.

(** the status file: missing, unreadable, or a key file *)
Inductive sfile := FMissing | FBroken | FGood (kf : keyfile).
Definition sfile_kf (f : sfile) : keyfile := match f with FGood kf => kf | _ => [] end.

(** status_file.c:137-173 r_slot_status_read / r_slot_status_write (per-slot file) *)
Definition slot_file_write {T} (i : iso T) (r : rstat T) : keyfile := set_status i [] "slot" r.
Definition slot_file_read {T} (i : iso T) (f : sfile) : res (rstat T) :=
  match f with FGood kf => Ok (get_status i kf "slot") | _ => Err end.

(** slot->status of all slots; None = not loaded *)
Definition statuses (T : Type) := string -> option (rstat T).
Definition slot_group (n : string) : string := ("slot." ++ n)%string.

(** status_file.c:219-262 r_slot_status_load_globally *)
Definition load_globally {T} (i : iso T) (f : sfile) (slots : list slot) (m : statuses T) : statuses T :=
  fun n =>
    if existsb (fun s => String.eqb (sl_name s) n) slots then
      match m n with
      | Some r => Some r
      | None => Some (match kf_group (sfile_kf f) (slot_group n) with
                      | Some _ => get_status i (sfile_kf f) (slot_group n)
                      | None => rstat0
                      end)
      end
    else m n.

(** status_file.c:317-357 key_file_init_from_shared_status_file: groups with the prefix are
    removed; a broken file is moved away and replaced by an empty one *)
Definition init_shared (f : sfile) (prefix : string) : keyfile :=
  filter (fun e => negb (has_prefix prefix (fst e))) (sfile_kf f).

(** status_file.c:361-399 save_slot_status_globally: the new file *)
Definition save_globally {T} (i : iso T) (f : sfile) (slots : list slot) (m : statuses T) : keyfile :=
  fold_left (fun kf s => match m (sl_name s) with
                         | Some r => set_status i kf (slot_group (sl_name s)) r
                         | None => kf
                         end) slots (init_shared f "slot.").

(** status_file.c:419-465 r_system_status_load (boot-id; None = error or no key),
    r_system_status_save *)
Definition system_load (f : sfile) : option string :=
  match f with FGood kf => kf_get kf "system" "boot-id" | _ => None end.
Definition system_save (f : sfile) (boot_id : string) : keyfile :=
  kf_set (init_shared f "system") "system" "boot-id" boot_id.
