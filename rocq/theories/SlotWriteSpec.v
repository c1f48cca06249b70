(** Vocabulary for the statements about slot updates: what a recorded action does to mounts and devices. *)
From Verif Require Import Base BaseLemmas Slot Image Handlers SlotWrite.

Definition smem (x : string) (l : list string) : bool := existsb (String.eqb x) l.

(** The mount table after a history: (source, mount point), newest first.  A successful
    "mount [options] SOURCE DIR" adds an entry, a successful "umount DIR" removes the newest one for DIR. *)
Fixpoint drop_mount (m : string) (l : list (string * string)) : list (string * string) :=
  match l with
  | [] => []
  | e :: r => if String.eqb (snd e) m then r else e :: drop_mount m r
  end.
Definition mount_event (tab : list (string * string)) (e : act * bool) : list (string * string) :=
  match e with
  | (ARun ("mount" :: args) _ _, true) => (nth 1 (rev args) "", nth 0 (rev args) "") :: tab
  | (ARun ("umount" :: m :: []) _ _, true) => drop_mount m tab
  | _ => tab
  end.
Definition mounts_from (tab : list (string * string)) (t : hist) : list (string * string) := fold_left mount_event t tab.
Definition mounts (t : hist) : list (string * string) := mounts_from [] t.

(** What a path denotes while [tab] is mounted: the source mounted there, or the path itself. *)
Definition resolve (tab : list (string * string)) (p : string) : string :=
  match find (fun e => String.eqb (snd e) p) tab with Some e => fst e | None => p end.

(** The device an action may modify (hooks excepted), after history [t]. *)
Definition modifies (t : hist) (a : act) : option string :=
  match a with
  | ARun (prog :: args) _ out =>
      if smem prog ["mkfs.ext4"; "mkfs.vfat"; "mkfs.ubifs"; "resize2fs"; "flashcp"] then Some (last args "")
      else if String.eqb prog "flash_erase" then Some (nth 1 args "")
      else if String.eqb prog "nandwrite" then Some (nth 2 args "")
      else if String.eqb prog "tar" then Some (resolve (mounts t) (nth 3 args ""))
      else if smem prog ["casync"; "desync"] then
        Some (match out with Some d => d | None => resolve (mounts t) (last args "") end)
      else None
  | AVolUp d _ | ACopy _ d | AWrite _ d | AClear d _ _ | AWriteAt _ d _ _ _ | ASwitch d _ _ | ASwitchEmmc d _ => Some d
  | _ => None
  end.
Definition modifying (a : act) : bool := match modifies [] a with Some _ => true | None => false end.
(** actions that make the updated boot area the active one *)
Definition activates (a : act) : bool := match a with ASwitch _ _ _ | ASwitchEmmc _ _ => true | _ => false end.
(** actions that put the content of [file] on the target *)
Definition stores (file : string) (a : act) : bool :=
  match a with
  | ACopy f _ | AWrite f _ | AWriteAt f _ _ _ _ => String.eqb f file
  | ARun argv inp _ => match inp with Some f => String.eqb f file | None => false end || (modifying a && smem file argv)
  | _ => false
  end.

Definition is_hook (cmd : string) (a : act) : bool := match a with AHook _ c _ => String.eqb c cmd | _ => false end.
Definition is_umount (a : act) : bool := match a with ARun ["umount"; _] _ _ => true | _ => false end.
(** what may still happen after a failure: unmounting, removing the mount point, write protection *)
Definition cleanup (a : act) : bool :=
  match a with ARun ["umount"; _] _ _ | ARmdir _ | AForceRo _ true => true | _ => false end.

(** Failures that do not matter: removing a mount point; using the active slot [sd] of the same class as a
    casync seed. *)
Definition seeds (c : wctx) (i : image) (sd : slot) : Prop :=
  In sd (wx_slots c) /\ sx_state (wx_ext c (sl_name sd)) <> "inactive" /\ sl_class sd = im_class i.
Definition harmless (c : wctx) (i : image) (a : act) : Prop :=
  match a with
  | ARmdir _ => True
  | ASeedStat d => exists sd, seeds c i sd /\ d = sl_device sd
  | AExists d => exists sd, seeds c i sd /\ d = sl_device sd
  | AMkdir m => exists sd, seeds c i sd /\ m = mount_point c sd
  | ARun ("mount" :: args) _ _ => exists sd, seeds c i sd /\ nth 0 (rev args) "" = mount_point c sd
  | _ => False
  end.

Definition count (f : act -> bool) (t : hist) : nat := List.length (filter (fun e => f (fst e)) t).

(** The changes a slot type requires for an image that is not a casync index, in order, written out. *)
Definition changes (h : handler) (c : wctx) (i : image) (s : slot) : list act :=
  let file := getopt (im_filename i) in
  let dev := sl_device s in
  let x := wx_ext c (sl_name s) in
  let dir := (wx_prefix c ++ "/" ++ sl_name s)%string in
  let tar := ARun (["tar"; "xf"; "-"; "-C"; dir; "--numeric-owner"] ++ match tar_flag file with Some f => [f] | None => [] end) (Some file) None in
  let start := match wx_part c with Some p => fst p | None => 0%N end in
  let size := match wx_part c with Some p => snd p | None => 0%N end in
  let half := (sx_size x / 2)%N in
  let area st := [AClear dev st (Some half); AWriteAt file dev st half 512] in
  match h with
  | H_img_to_fs => AWrite file dev :: (if sx_resize x && String.eqb (sl_type s) "ext4" then [ARun ["resize2fs"; dev] None None] else [])
  | H_img_to_raw => [AWrite file dev]
  | H_img_to_ubivol | H_img_to_ubifs => [AVolUp dev (im_size i); ACopy file dev]
  | H_img_to_nor => [ARun ["flashcp"; "--erase-all"; file; dev] None None]
  | H_img_to_nand => [ARun ["flash_erase"; "--quiet"; dev; "0"; "0"] None None; ARun ["nandwrite"; "--pad"; "--quiet"; dev; "-"] (Some file) None]
  | H_archive_to_ext4 =>
      ARun (["mkfs.ext4"; "-F"] ++ (if Nat.leb (String.length (sl_name s)) 16 then ["-L"; sl_name s] else []) ++ ["-I256"] ++ sx_mkfs x ++ [dev]) None None ::
      (if match im_type i with Some t => String.eqb t "emptyfs" | None => false end then [] else [tar])
  | H_archive_to_ubifs => [ARun (["mkfs.ubifs"; "-y"] ++ sx_mkfs x ++ [dev]) None None; tar]
  | H_archive_to_vfat => [ARun (["mkfs.vfat"; "-n"; vfat_label (sl_name s)] ++ sx_mkfs x ++ [dev]) None None; tar]
  | H_archive_to_jffs2 => [ARun ["flash_erase"; "--quiet"; dev; "0"; "0"] None None; tar]
  | H_boot_mbr_switch | H_boot_gpt_switch => [AClear dev start (Some size); AWriteAt file dev start size 0; ASwitch dev start size]
  | H_boot_raw_fallback =>
      match wx_clear c with
      | Some false => area (sx_start x + half)%N ++ area (sx_start x)
      | _ => area (sx_start x) ++ area (sx_start x + half)%N
      end
  | H_boot_emmc =>
      let n := match wx_bp c with Some (Some a) => Nat.modulo (a + 1) 2 | _ => 0%nat end in
      let part := (getopt (wx_realdev c) ++ (if Nat.eqb n 0 then "boot0" else "boot1"))%string in
      [AClear part 0 None; AWrite file part; ASwitchEmmc part n]
  | H_hook_install => []
  end.

(** The boot name of a slot: that of its parent, if it has one. *)
Definition boot_name (c : wctx) (s : slot) (n : option string) : Prop :=
  match sl_parent s with
  | None => n = sl_bootname s
  | Some p => exists ps, In ps (wx_slots c) /\ sl_name ps = p /\ n = sl_bootname ps
  end.
Definition parent_name (s : slot) : string := match sl_parent s with Some p => p | None => "" end.

(** A hook is to run: the bundle has a hook script and the image asks for it. *)
Definition enabled (hook : option string) (flag : bool) : Prop := hook <> None /\ flag = true.

(** How archives are decompressed, by the end of the file name. *)
Definition compressions : list (string * option string) := [
  (".tar", None); (".tar.gz", Some "-z"); (".tgz", Some "-z"); (".taz", Some "-z"); (".tar.Z", Some "-Z"); (".taZ", Some "-Z");
  (".tar.bz2", Some "-j"); (".tbz", Some "-j"); (".tbz2", Some "-j"); (".tz2", Some "-j"); (".tar.lz", Some "--lzip");
  (".tar.lzma", Some "--lzma"); (".tlz", Some "--lzma"); (".tar.lzo", Some "--lzop"); (".tar.xz", Some "-J"); (".txz", Some "-J");
  (".tar.zst", Some "--zstd"); (".tzst", Some "--zstd")].

(** ** More vocabulary *)

(** The image is a casync index, which casync or desync resolves while writing. *)
Definition indexed (h : handler) (i : image) : bool :=
  let file := getopt (im_filename i) in
  match h with
  | H_img_to_fs | H_img_to_raw | H_img_to_ubivol | H_img_to_ubifs => has_suffix ".caibx" file
  | H_archive_to_ext4 => negb (match im_type i with Some t => String.eqb t "emptyfs" | None => false end) && (has_suffix ".caidx" file || has_suffix ".catar" file)
  | H_archive_to_ubifs | H_archive_to_vfat | H_archive_to_jffs2 => has_suffix ".caidx" file || has_suffix ".catar" file
  | _ => false
  end.
(** The step of [changes] that writes the content. *)
Definition is_content (a : act) : bool :=
  match a with AWrite _ _ | ACopy _ _ => true | ARun ("tar" :: _) _ _ => true | _ => false end.

(** A seed directory or device [p] for an image: it belongs to an active slot of the same class, and is mounted
    (by the run [t] or before, [mp]) or known to be seekable. *)
Definition seed_ok (c : wctx) (i : image) (mp : string -> option string) (t : hist) (p : string) : Prop :=
  exists sd, seeds c i sd /\
    if has_suffix ".caidx" (getopt (im_filename i)) then
      mp (sl_name sd) = Some p \/
      p = (wx_prefix c ++ "/" ++ sl_name sd)%string /\ exists args, In (ARun ("mount" :: args) None None, true) t /\ nth 0 (rev args) "" = p
    else p = sl_device sd /\ In (ASeedStat p, true) t.
(** Without a seed: there is none, or preparing it failed. *)
Definition no_seed_ok (c : wctx) (i : image) (t : hist) : Prop :=
  (forall sd, ~ seeds c i sd) \/ exists a, In (a, false) t /\ harmless c i a.
(** The command line of casync or desync after history [t]; [out]: the device its output goes to. *)
Definition casync_call (c : wctx) (i : image) (mp : string -> option string) (t : hist) (argv : list string) (out : option string) : Prop :=
  exists args target seed,
    wx_casync_args c = Some args /\ (out <> None -> target = "-") /\
    argv = (if wx_desync c then ["desync"; "extract"; "--store"; wx_store c]
            else ["casync"; "extract"] ++ match seed with Some p => ["--seed"; p] | None => [] end ++ ["--store"; wx_store c; "--seed-output=no"])
           ++ args ++ [getopt (im_filename i); target] /\
    (wx_desync c = false -> match seed with Some p => seed_ok c i mp t p | None => no_seed_ok c i t end).

(** What must hold before a slot of each kind is touched. *)
Definition accepts (h : handler) (c : wctx) (hook : option string) (i : image) (s : slot) : Prop :=
  let x := wx_ext c (sl_name s) in
  let size := (im_size i mod 2 ^ 64)%Z in
  (indexed h i = true -> wx_casync_args c <> None) /\
  match h with
  | H_boot_mbr_switch | H_boot_gpt_switch => exists start sz, wx_part c = Some (start, sz) /\ (size <= Z.of_N sz)%Z
  | H_boot_raw_fallback => N.divide 512 (sx_start x) /\ N.divide 512 (sx_size x / 2) /\ (size <= Z.of_N (sx_size x / 2))%Z /\ wx_clear c <> None
  | H_boot_emmc => wx_realdev c <> None /\
      exists before after, wx_bp c = Some before /\ wx_bp_after c = Some after /\
        after <> Some (match before with Some a => a | None => 1%nat end)
  | H_hook_install => hook <> None
  | _ => True
  end.

(** upper case of an ASCII letter *)
Definition upper (a : ascii) : ascii := if Nat.leb 97 (nat_of_ascii a) && Nat.leb (nat_of_ascii a) 122 then ascii_of_nat (nat_of_ascii a - 32) else a.

(** [t] is the decimal notation of [z], with a sign if negative *)
Definition is_decimal (t : string) (z : Z) : Prop :=
  exists u, t = (if (z <? 0)%Z then "-" ++ u else u)%string /\ u <> "" /\ all_chars (is_digit 10) u = true /\
    horner 10 0 u = Z.abs_N z.
