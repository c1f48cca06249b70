(** Model of the functions that update one slot: src/update_handler.c:317-727 (casync), 1036-2642 (the
    handlers), and slot mounting in src/mount.c:64-104, 234-352.

    A run is the sequence of external actions (programs, hooks, device operations) with their outcome.
    The outcome of every action is chosen by an oracle that sees the whole history, so every statement
    about all oracles covers every combination of failures.

    Simplifications: g_build_filename is "prefix/name"; actions that only read (querying the partition
    table, the active eMMC boot partition, the first sector) are answers in [wctx] and not in the
    trace; spawning a program, feeding its standard input and waiting for it is one action; the raw
    copy of an image to a device (copy_raw_image, write_image_to_dev without casync) is one action here,
    modelled byte by byte in BootRegion.v and HashIndex.v; error messages are not modelled. *)
From Verif Require Import Base Slot Image Handlers KeyFile.

(** The fields of include/slot.h:37-82 that Slot.v leaves out. *)
Record sext := mkSext {
  sx_mkfs : list string;           (* extra_mkfs_opts *)
  sx_mount : option string;        (* extra_mount_opts *)
  sx_resize : bool;                (* resize *)
  sx_ext_mp : option string;       (* ext_mount_point *)
  sx_state : string;               (* r_slot_slotstate_to_str of state, slot.c:115-132 *)
  sx_start : N;                    (* region_start *)
  sx_size : N;                     (* region_size *)
  sx_limit : N                     (* size_limit *)
}.

(** What the handlers read from r_context(), and the answers to read-only queries. *)
Record wctx := mkWctx {
  wx_slots : list slot;            (* config->slots, in the order of the hash table iterator *)
  wx_ext : string -> sext;         (* by slot name *)
  wx_prefix : string;              (* config->mount_prefix *)
  wx_desync : bool;                (* config->use_desync *)
  wx_casync_args : option (list string); (* casync_install_args after g_shell_parse_argv; None: parse error *)
  wx_store : string;               (* mounted_bundle->storepath *)
  wx_compatible : option string;
  wx_variant : option string;
  wx_version : option string;
  wx_bundle : option (list string * string); (* mounted_bundle: public key hashes, mount point *)
  wx_part : option (N * N);        (* inactive partition (start, size) of the MBR/GPT; None: error *)
  wx_clear : option bool;          (* check_if_area_is_clear; None: error *)
  wx_realdev : option string;      (* r_realpath of the eMMC device *)
  wx_bp : option (option nat);     (* active boot partition before; None: error, Some None: -1 *)
  wx_bp_after : option (option nat)(* and after the switch *)
}.

(** External actions. *)
Inductive act :=
| ARun (argv : list string) (stdin stdout : option string) (* program; file fed to stdin; device as stdout *)
| AHook (path cmd : string) (env : list (string * string)) (* hook script, with its variables *)
| AExists (path : string)                                  (* g_file_test EXISTS *)
| AMkdir (path : string)                                   (* r_create_mount_point *)
| ARmdir (path : string)
| ASeedStat (dev : string)                                 (* g_stat and not a character device *)
| AOpen (dev : string)
| AVolUp (dev : string) (size : Z)                         (* UBI_IOCVOLUP *)
| ACopy (file dev : string)                                (* raw copy to the open device *)
| AClose (dev : string)
| AWrite (file dev : string)                               (* write_image_to_dev without casync *)
| AForceRo (dev : string) (ro : bool)
| AClear (dev : string) (start : N) (size : option N)      (* zero the area *)
| AWriteAt (file dev : string) (start size header : N)
| ASwitch (dev : string) (start size : N)                  (* MBR/GPT entry *)
| ASwitchEmmc (dev : string) (part : nat).

Definition hist := list (act * bool).
Definition oracle := hist -> act -> bool.
Record wst := mkWst { ws_tr : hist; ws_mp : string -> option string (* slot->mount_point, by slot name *) }.
Definition wprog := wst -> bool * wst.

Definition set_mp (n : string) (v : option string) (w : wst) : wst :=
  mkWst (ws_tr w) (fun m => if String.eqb m n then v else ws_mp w m).
Definition step (o : oracle) (a : act) : wprog := fun w =>
  let b := o (ws_tr w) a in (b, mkWst (ws_tr w ++ [(a, b)]) (ws_mp w)).
(** if (!m) goto out; k *)
Definition andthen (m k : wprog) : wprog := fun w => let (b, w1) := m w in if b then k w1 else (false, w1).
(** m; then always c, whose failure makes the result FALSE *)
Definition finally (m c : wprog) : wprog := fun w => let (b, w1) := m w in let (b2, w2) := c w1 in (b && b2, w2).
Definition skip : wprog := fun w => (true, w).
Definition refuse : wprog := fun w => (false, w).
Infix "&&>" := andthen (at level 42, right associativity).

(** g_str_has_suffix *)
Definition has_suffix (suf s : string) : bool :=
  Nat.leb (String.length suf) (String.length s) && String.eqb (sdrop (String.length s - String.length suf) s) suf.

(** g_path_get_basename, for paths not ending in '/' *)
Definition basename (p : string) : string := last (split_on "/" p) "".

(** mount.c:64-104 r_mount_full *)
Definition mount_argv (src mp : string) (type : string) (opts : option string) : list string :=
  ["mount"; "-t"; type] ++ match opts with Some x => ["-o"; x] | None => [] end ++
  [if String.eqb type "jffs2" then basename src else src; mp].

(** mount.c:260-291 r_create_mount_point: the path *)
Definition mount_point (c : wctx) (s : slot) : string := wx_prefix c ++ "/" ++ sl_name s.

(** mount.c:293-332 r_mount_slot *)
Definition mount_slot (o : oracle) (c : wctx) (s : slot) : wprog := fun w =>
  match ws_mp w (sl_name s) with
  | Some _ => (false, w)                                   (* g_return_val_if_fail *)
  | None =>
      (step o (AExists (sl_device s)) &&>
       step o (AMkdir (mount_point c s)) &&>
       (fun w1 =>
          let (b, w2) := step o (ARun (mount_argv (sl_device s) (mount_point c s) (sl_type s) (sx_mount (wx_ext c (sl_name s)))) None None) w1 in
          if b then (true, set_mp (sl_name s) (Some (mount_point c s)) w2)
          else (false, snd (step o (ARmdir (mount_point c s)) w2)))) w
  end.

(** mount.c:334-352 r_umount_slot (with r_umount, mount.c:234-256) *)
Definition umount_slot (o : oracle) (s : slot) : wprog := fun w =>
  match ws_mp w (sl_name s) with
  | None => (false, w)
  | Some m =>
      let (b, w1) := step o (ARun ["umount"; m] None None) w in
      if b then (true, set_mp (sl_name s) None (snd (step o (ARmdir m) w1))) else (false, w1)
  end.

(** printf of a goffset *)
Definition print_Z (z : Z) : string := if (z <? 0)%Z then "-" ++ print_num 10 (Z.to_N (- z)) else print_num 10 (Z.to_N z).
Definition getopt (o : option string) : string := match o with Some x => x | None => "" end.

(** update_handler.c:1388-1484 run_slot_hook_extra_env: the variables.  A later setenv of the same
    name replaces an earlier one. *)
Definition parent_of (c : wctx) (s : slot) : option slot :=
  match sl_parent s with
  | Some p => find (fun x => String.eqb (sl_name x) p) (wx_slots c)
  | None => None
  end.
Definition hook_env (c : wctx) (i : image) (s : slot) (mp : option string) (vars : list (string * string)) : list (string * string) :=
  let x := wx_ext c (sl_name s) in
  let base :=
    [("RAUC_SYSTEM_COMPATIBLE", getopt (wx_compatible c)); ("RAUC_SYSTEM_VARIANT", getopt (wx_variant c));
     ("RAUC_SYSTEM_VERSION", getopt (wx_version c)); ("RAUC_SLOT_NAME", sl_name s); ("RAUC_SLOT_STATE", sx_state x);
     ("RAUC_SLOT_CLASS", sl_class s); ("RAUC_SLOT_TYPE", sl_type s); ("RAUC_SLOT_DEVICE", sl_device s);
     ("RAUC_SLOT_BOOTNAME", getopt (match parent_of c s with Some p => sl_bootname p | None => sl_bootname s end));
     ("RAUC_SLOT_PARENT", match parent_of c s with Some p => sl_name p | None => "" end)] ++
    match mp, sx_ext_mp x with
    | Some m, _ => [("RAUC_SLOT_MOUNT_POINT", m)]
    | None, Some m => [("RAUC_SLOT_MOUNT_POINT", m)]
    | None, None => []
    end ++
    [("RAUC_IMAGE_NAME", getopt (im_filename i)); ("RAUC_IMAGE_SIZE", print_Z (im_size i));
     ("RAUC_IMAGE_DIGEST", getopt (im_digest i)); ("RAUC_IMAGE_CLASS", im_class i);
     ("RAUC_MOUNT_PREFIX", wx_prefix c)] ++
    match wx_bundle c with
    | Some (hashes, bmp) => [("RAUC_BUNDLE_SPKI_HASHES", join " " hashes); ("RAUC_BUNDLE_MOUNT_POINT", bmp)]
    | None => []
    end in
  fold_left (fun e kv => assoc_set (fst kv) (snd kv) e) vars base.

(** update_handler.c:1388-1500 run_slot_hook_extra_env, run_slot_hook.  [hook] = hook_name (NULL: the
    g_return_val_if_fail). *)
Definition run_hook (o : oracle) (c : wctx) (hook : option string) (cmd : string) (i : image) (s : slot) (vars : list (string * string)) : wprog := fun w =>
  match hook with
  | None => (false, w)
  | Some h => step o (AHook h cmd (hook_env c i s (ws_mp w (sl_name s)) vars)) w
  end.

(** update_handler.c:1502-1543 mount_and_run_slot_hook *)
Definition mount_and_run_hook (o : oracle) (c : wctx) (hook : option string) (cmd : string) (i : image) (s : slot) : wprog :=
  mount_slot o c s &&> finally (run_hook o c hook cmd i s []) (umount_slot o s).

(** "if (hook_name && image->hooks.pre_install)" (e.g. update_handler.c:1553, 1602) *)
Definition when (b : bool) (m : wprog) : wprog := if b then m else skip.
Definition has_hook (hook : option string) (enabled : bool) : bool := match hook with Some _ => enabled | None => false end.
Definition pre_hook (o : oracle) (c : wctx) (hook : option string) (i : image) (s : slot) (vars : list (string * string)) : wprog :=
  when (has_hook hook (im_pre i)) (run_hook o c hook "slot-pre-install" i s vars).
Definition post_hook (o : oracle) (c : wctx) (hook : option string) (i : image) (s : slot) (vars : list (string * string)) : wprog :=
  when (has_hook hook (im_post i)) (run_hook o c hook "slot-post-install" i s vars).
Definition pre_hook_mounted (o : oracle) (c : wctx) (hook : option string) (i : image) (s : slot) : wprog :=
  when (has_hook hook (im_pre i)) (mount_and_run_hook o c hook "slot-pre-install" i s).
Definition post_hook_mounted (o : oracle) (c : wctx) (hook : option string) (i : image) (s : slot) : wprog :=
  when (has_hook hook (im_post i)) (mount_and_run_hook o c hook "slot-post-install" i s).

Definition run (o : oracle) (argv : list string) : wprog := step o (ARun argv None None).

(** update_handler.c:1036-1059 ubifs_format_slot *)
Definition mkfs_ubifs_argv (c : wctx) (s : slot) : list string :=
  ["mkfs.ubifs"; "-y"] ++ sx_mkfs (wx_ext c (sl_name s)) ++ [sl_device s].
(** update_handler.c:1061-1082 ext4_resize_slot *)
Definition resize_argv (s : slot) : list string := ["resize2fs"; sl_device s].
(** update_handler.c:1084-1113 ext4_format_slot *)
Definition mkfs_ext4_argv (c : wctx) (s : slot) : list string :=
  ["mkfs.ext4"; "-F"] ++ (if Nat.leb (String.length (sl_name s)) 16 then ["-L"; sl_name s] else []) ++ ["-I256"] ++
  sx_mkfs (wx_ext c (sl_name s)) ++ [sl_device s].

(** update_handler.c:1129-1156 vfat_label_generator *)
Definition vfat_invalid : string := "*?.,;:/\|+=<>[]""".
Definition toupper (a : ascii) : ascii :=
  let n := nat_of_ascii a in if Nat.leb 97 n && Nat.leb n 122 then ascii_of_nat (n - 32) else a.
Fixpoint in_string (a : ascii) (s : string) : bool :=
  match s with EmptyString => false | String b r => Ascii.eqb a b || in_string a r end.
Fixpoint smap (f : ascii -> ascii) (s : string) : string :=
  match s with EmptyString => EmptyString | String a r => String (f a) (smap f r) end.
Definition vfat_char (a : ascii) : ascii :=
  let u := toupper a in if in_string u vfat_invalid then "_"%char else u.
Definition vfat_label (name : string) : string :=
  smap vfat_char (if Nat.ltb 11 (String.length name) then stake 11 name else name).
(** update_handler.c:1158-1182 vfat_format_slot *)
Definition mkfs_vfat_argv (c : wctx) (s : slot) : list string :=
  ["mkfs.vfat"; "-n"; vfat_label (sl_name s)] ++ sx_mkfs (wx_ext c (sl_name s)) ++ [sl_device s].

(** update_handler.c:1184-1207 nor_write_slot *)
Definition flashcp_argv (file dev : string) : list string := ["flashcp"; "--erase-all"; file; dev].
(** update_handler.c:1209-1233 flash_format_slot *)
Definition flash_erase_argv (dev : string) : list string := ["flash_erase"; "--quiet"; dev; "0"; "0"].
(** update_handler.c:1235-1278 nand_write_slot *)
Definition nandwrite_argv (dev : string) : list string := ["nandwrite"; "--pad"; "--quiet"; dev; "-"].

(** update_handler.c:1280-1317 suffix_to_tar_flag *)
Definition tar_suffixes : list (string * option string) := [
  (".tar", None); (".gz", Some "-z"); (".tgz", Some "-z"); (".taz", Some "-z"); (".Z", Some "-Z"); (".taZ", Some "-Z");
  (".bz2", Some "-j"); (".tbz", Some "-j"); (".tbz2", Some "-j"); (".tz2", Some "-j"); (".lz", Some "--lzip");
  (".lzma", Some "--lzma"); (".tlz", Some "--lzma"); (".lzo", Some "--lzop"); (".xz", Some "-J"); (".txz", Some "-J");
  (".zst", Some "--zstd"); (".tzst", Some "--zstd")].
Definition tar_flag (file : string) : option string :=
  match find (fun e => has_suffix (fst e) file) tar_suffixes with Some e => snd e | None => None end.
(** update_handler.c:1319-1364 untar_image *)
Definition tar_argv (file dest : string) : list string :=
  ["tar"; "xf"; "-"; "-C"; dest; "--numeric-owner"] ++ match tar_flag file with Some f => [f] | None => [] end.

(** update_handler.c:471-550 casync_extract; TMPDIR and progress variables left out *)
Definition casync_argv (c : wctx) (args : list string) (file : string) (seed : option string) (dest : string) : list string :=
  [if wx_desync c then "desync" else "casync"; "extract"] ++ match seed with Some x => ["--seed"; x] | None => [] end ++
  ["--store"; wx_store c] ++ (if wx_desync c then [] else ["--seed-output=no"]) ++ args ++ [file; dest].
Definition casync_extract (o : oracle) (c : wctx) (file : string) (seed : option string) (dest : string) (out : option string) : wprog :=
  match wx_casync_args c with
  | None => refuse
  | Some args => step o (ARun (casync_argv c args file seed (match out with Some _ => "-" | None => dest end)) None out)
  end.

(** update_handler.c:552-575 get_active_slot_class_member *)
Definition active_member (c : wctx) (class : string) : option slot :=
  find (fun s => negb (String.eqb (sx_state (wx_ext c (sl_name s))) "inactive") && String.eqb (sl_class s) class) (wx_slots c).

(** update_handler.c:577-674 casync_extract_image.  [out] = device behind out_fd. *)
Definition casync_image (o : oracle) (c : wctx) (i : image) (file dest : string) (out : option string) : wprog := fun w =>
  match (if wx_desync c then None else active_member c (im_class i)) with
  | None => casync_extract o c file None dest out w
  | Some sd =>
      if has_suffix ".caidx" file then
        match ws_mp w (sl_name sd) with
        | Some m => casync_extract o c file (Some m) dest out w
        | None =>
            let (b, w1) := mount_slot o c sd w in
            if b then finally (casync_extract o c file (ws_mp w1 (sl_name sd)) dest out) (umount_slot o sd) w1
            else casync_extract o c file None dest out w1
        end
      else
        let (b, w1) := step o (ASeedStat (sl_device sd)) w in
        casync_extract o c file (if b then Some (sl_device sd) else None) dest out w1
  end.

(** update_handler.c:1366-1374 unpack_archive *)
Definition unpack (o : oracle) (c : wctx) (i : image) (file : string) (dest : string) : wprog :=
  if has_suffix ".caidx" file then casync_image o c i file dest None
  else if has_suffix ".catar" file then casync_image o c i file dest None
  else step o (ARun (tar_argv file dest) (Some file) None).

(** update_handler.c:986-1034 write_image_to_dev *)
Definition write_dev (o : oracle) (c : wctx) (i : image) (file : string) (s : slot) : wprog :=
  if has_suffix ".caibx" file then casync_image o c i file (sl_device s) None
  else step o (AWrite file (sl_device s)).

(** update_handler.c:1563-1595, 1632-1664: update of an open UBI volume *)
Definition write_ubi (o : oracle) (c : wctx) (i : image) (file : string) (s : slot) : wprog :=
  step o (AOpen (sl_device s)) &&> step o (AVolUp (sl_device s) (im_size i)) &&>
  (if has_suffix ".caibx" file then casync_image o c i file "" (Some (sl_device s)) else step o (ACopy file (sl_device s))) &&>
  step o (AClose (sl_device s)).

(** update_handler.c:1545-1612 img_to_ubivol_handler *)
Definition img_to_ubivol o c hook i file s : wprog :=
  pre_hook o c hook i s [] &&> write_ubi o c i file s &&> post_hook o c hook i s [].
(** update_handler.c:1614-1681 img_to_ubifs_handler *)
Definition img_to_ubifs o c hook i file s : wprog :=
  pre_hook_mounted o c hook i s &&> write_ubi o c i file s &&> post_hook_mounted o c hook i s.

(** the mounted part of the archive handlers, e.g. update_handler.c:1708-1748: mount, extract unless
    [empty], post-install hook, unmount in any case *)
Definition unpack_mounted o c hook (empty : bool) i file s : wprog := 
  mount_slot o c s &&>
  finally ((if empty then skip else unpack o c i file (mount_point c s)) &&> post_hook o c hook i s []) (umount_slot o s).
(** update_handler.c:1683-1749 archive_to_ubifs_handler *)
Definition archive_to_ubifs o c hook i file s : wprog :=
  pre_hook_mounted o c hook i s &&> run o (mkfs_ubifs_argv c s) &&> unpack_mounted o c hook false i file s.
(** update_handler.c:1751-1817 archive_to_jffs2_handler *)
Definition archive_to_jffs2 o c hook i file s : wprog :=
  pre_hook_mounted o c hook i s &&> run o (flash_erase_argv (sl_device s)) &&> unpack_mounted o c hook false i file s.
(** update_handler.c:1819-1888 archive_to_ext4_handler *)
Definition archive_to_ext4 o c hook i file s : wprog :=
  pre_hook o c hook i s [] &&> run o (mkfs_ext4_argv c s) &&>
  unpack_mounted o c hook (match im_type i with Some t => String.eqb t "emptyfs" | None => false end) i file s.
(** update_handler.c:1890-1956 archive_to_vfat_handler *)
Definition archive_to_vfat o c hook i file s : wprog :=
  pre_hook o c hook i s [] &&> run o (mkfs_vfat_argv c s) &&> unpack_mounted o c hook false i file s.

(** update_handler.c:1958-1986 img_to_nor_handler *)
Definition img_to_nor o c hook i file s : wprog :=
  pre_hook o c hook i s [] &&> run o (flashcp_argv file (sl_device s)) &&> post_hook o c hook i s [].
(** update_handler.c:1988-2023 img_to_nand_handler *)
Definition img_to_nand o c hook i file s : wprog :=
  pre_hook o c hook i s [] &&> run o (flash_erase_argv (sl_device s)) &&>
  step o (ARun (nandwrite_argv (sl_device s)) (Some file) None) &&> post_hook o c hook i s [].
(** update_handler.c:2025-2060 img_to_fs_handler *)
Definition img_to_fs o c hook i file s : wprog :=
  pre_hook_mounted o c hook i s &&> write_dev o c i file s &&>
  when (sx_resize (wx_ext c (sl_name s)) && String.eqb (sl_type s) "ext4") (run o (resize_argv s)) &&>
  post_hook_mounted o c hook i s.
(** update_handler.c:2597-2624 img_to_raw_handler *)
Definition img_to_raw o c hook i file s : wprog :=
  pre_hook o c hook i s [] &&> write_dev o c i file s &&> post_hook o c hook i s [].
(** update_handler.c:2626-2637 hook_install_handler *)
Definition hook_install o c hook i s : wprog := run_hook o c hook "slot-install" i s [].

(** update_handler.c:2062-2152, 2155-2243 img_to_boot_mbr_switch_handler, img_to_boot_gpt_switch_handler *)
Definition img_to_boot_switch o c hook i file s : wprog :=
  match wx_part c with
  | None => refuse
  | Some (start, size) =>
      let half := if N.eqb start (sx_start (wx_ext c (sl_name s))) then "0" else "1" in
      let vars := [("RAUC_BOOT_PARTITION_ACTIVATING", half); ("RAUC_BOOT_PARTITION_START", print_num 10 start); ("RAUC_BOOT_PARTITION_SIZE", print_num 10 size)] in
      if (Z.of_N size <? im_size i mod 2 ^ 64)%Z then refuse
      else pre_hook o c hook i s vars &&> step o (AClear (sl_device s) start (Some size)) &&>
           step o (AWriteAt file (sl_device s) start size 0) &&> post_hook o c hook i s vars &&>
           step o (ASwitch (sl_device s) start size)
  end.

(** update_handler.c:2255-2326 copy_img_to_emmc_bootpart *)
Definition copy_to_bootpart o c hook i file (p : slot) vars : wprog := fun w =>
  let (b, w1) :=
    (step o (AForceRo (sl_device p) false) &&> pre_hook o c hook i p vars &&> step o (AClear (sl_device p) 0 None) &&>
     step o (AWrite file (sl_device p)) &&> post_hook o c hook i p vars &&> step o (AForceRo (sl_device p) true)) w in
  if b then (true, w1) else (false, snd (step o (AForceRo (sl_device p) true) w1)).
(** update_handler.c:2350-2361: the temporary slot has neither parent nor boot name nor mount points; only
    the state and the size limit are copied. *)
Definition part_ctx (c : wctx) (s : slot) : wctx :=
  let x := wx_ext c (sl_name s) in
  mkWctx (wx_slots c) (fun n => if String.eqb n (sl_name s) then mkSext [] None false None (sx_state x) 0 0 (sx_limit x) else wx_ext c n)
    (wx_prefix c) (wx_desync c) (wx_casync_args c) (wx_store c) (wx_compatible c) (wx_variant c) (wx_version c) (wx_bundle c)
    (wx_part c) (wx_clear c) (wx_realdev c) (wx_bp c) (wx_bp_after c).
(** update_handler.c:2329-2428 img_to_boot_emmc_handler *)
Definition img_to_boot_emmc o c hook i file s : wprog :=
  match wx_realdev c, wx_bp c with
  | Some dev, Some bp =>
      let active := match bp with Some a => a | None => 1 end in
      let inactive := Nat.modulo (active + 1) 2 in
      let part := mkSlot (sl_name s) (sl_class s) (dev ++ "boot" ++ print_num 10 (N.of_nat inactive)) (sl_type s) None None false false in
      let vars := [("RAUC_BOOT_PARTITION_ACTIVATING", print_num 10 (N.of_nat inactive));
                   ("RAUC_BOOT_SIZE_LIMIT", print_num 10 (sx_limit (wx_ext c (sl_name s)))); ("RAUC_SLOT_DEVICE", dev)] in
      copy_to_bootpart o (part_ctx c s) hook i file part vars &&> step o (ASwitchEmmc (sl_device part) inactive) &&>
      match wx_bp_after c with
      | Some (Some a) => if Nat.eqb a active then refuse else skip
      | Some None => skip
      | None => refuse
      end
  | _, _ => refuse
  end.

(** update_handler.c:2490-2595 img_to_boot_raw_fallback_handler *)
Definition img_to_boot_raw_fallback o c hook i file s : wprog :=
  let x := wx_ext c (sl_name s) in
  let half := (sx_size x / 2)%N in
  let vars := [("RAUC_BOOT_REGION_START", print_num 10 (sx_start x)); ("RAUC_BOOT_REGION_SIZE", print_num 10 (sx_size x))] in
  let area (start : N) : wprog :=
    step o (AClear (sl_device s) start (Some half)) &&> step o (AWriteAt file (sl_device s) start half 512) in
  if negb (sx_start x mod 512 =? 0)%N then refuse
  else if negb (half mod 512 =? 0)%N then refuse
  else if (Z.of_N half <? im_size i mod 2 ^ 64)%Z then refuse
  else pre_hook o c hook i s vars &&>
       match wx_clear c with
       | None => refuse
       | Some true => area (sx_start x) &&> area (sx_start x + half)%N &&> post_hook o c hook i s vars
       | Some false => area (sx_start x + half)%N &&> area (sx_start x) &&> post_hook o c hook i s vars
       end.

(** install.c:1189 plan->slot_handler (...), by handler.  [file] = image->filename ("" for NULL). *)
Definition slot_handler (h : handler) (o : oracle) (c : wctx) (hook : option string) (i : image) (s : slot) : wprog :=
  let file := getopt (im_filename i) in
  match h with
  | H_img_to_fs => img_to_fs o c hook i file s
  | H_img_to_raw => img_to_raw o c hook i file s
  | H_img_to_ubivol => img_to_ubivol o c hook i file s
  | H_img_to_ubifs => img_to_ubifs o c hook i file s
  | H_img_to_nor => img_to_nor o c hook i file s
  | H_img_to_nand => img_to_nand o c hook i file s
  | H_archive_to_ext4 => archive_to_ext4 o c hook i file s
  | H_archive_to_ubifs => archive_to_ubifs o c hook i file s
  | H_archive_to_vfat => archive_to_vfat o c hook i file s
  | H_archive_to_jffs2 => archive_to_jffs2 o c hook i file s
  | H_boot_emmc => img_to_boot_emmc o c hook i file s
  | H_boot_mbr_switch => img_to_boot_switch o c hook i file s
  | H_boot_gpt_switch => img_to_boot_switch o c hook i file s
  | H_boot_raw_fallback => img_to_boot_raw_fallback o c hook i file s
  | H_hook_install => hook_install o c hook i s
  end.
