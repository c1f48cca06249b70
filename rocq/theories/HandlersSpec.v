(** What each update handler is for, written from its name and documentation
    (docs/reference.rst, docs/basic.rst), not from the table in the code. *)
From Verif Require Import Base Slot Image Handlers.

Definition mem (x : string) (l : list string) : bool := existsb (String.eqb x) l.

(** image types that hold files rather than a block image *)
Definition archive_type (t : string) : bool := mem t ["tar"; "catar"; "caidx"; "emptyfs"].

(** the file system inside an image of type [t], if the type says so *)
Definition fs_of_type (t : string) : option string :=
  if mem t ["ext4"; "ext4-caibx"] then Some "ext4"
  else if mem t ["vfat"; "vfat-caibx"] then Some "vfat"
  else if mem t ["ubifs"; "ubifs-caibx"] then Some "ubifs"
  else if mem t ["squashfs"; "squashfs-caibx"] then Some "squashfs"
  else None.

(** slot types that name a file system *)
Definition fs_slot (st : string) : bool := mem st ["ext4"; "vfat"; "ubifs"; "jffs2"].

Definition handler_fits (t st : string) (h : handler) : Prop :=
  match h with
  | H_archive_to_ext4 => archive_type t = true /\ st = "ext4"
  | H_archive_to_ubifs => archive_type t = true /\ st = "ubifs"
  | H_archive_to_vfat => archive_type t = true /\ st = "vfat"
  | H_archive_to_jffs2 => archive_type t = true /\ st = "jffs2"
  | H_img_to_ubifs => archive_type t = false /\ st = "ubifs"
  | H_img_to_ubivol => archive_type t = false /\ st = "ubivol"
  | H_img_to_nor => archive_type t = false /\ st = "nor"
  | H_img_to_nand => archive_type t = false /\ st = "nand"
  | H_img_to_fs => archive_type t = false /\ mem st ["ext4"; "vfat"] = true
  | H_img_to_raw => archive_type t = false /\ mem st ["raw"; "ext4"; "vfat"; "jffs2"; "nor"; "nand"] = true
  | H_boot_emmc => archive_type t = false /\ st = "boot-emmc"
  | H_boot_mbr_switch => archive_type t = false /\ st = "boot-mbr-switch"
  | H_boot_gpt_switch => archive_type t = false /\ st = "boot-gpt-switch"
  | H_boot_raw_fallback => archive_type t = false /\ st = "boot-raw-fallback"
  | H_hook_install => False
  end.

Definition contains (w s : string) : Prop := exists a b, s = (a ++ w ++ b)%string.

(** file name extension -> image type, as documented *)
Definition documented_ext : list (string * string) := [
  (".ext4", "ext4"); (".vfat", "vfat"); (".img", "raw"); (".squashfs", "squashfs"); (".ubifs", "ubifs");
  (".tgz", "tar"); (".tar", "tar"); (".tar.gz", "tar"); (".tar.xz", "tar"); (".catar", "catar"); (".caidx", "caidx");
  (".ext4.caibx", "ext4-caibx"); (".vfat.caibx", "vfat-caibx"); (".ubifs.caibx", "ubifs-caibx");
  (".img.caibx", "raw-caibx"); (".squashfs.caibx", "squashfs-caibx") ].

(** extensions of casync files and archives, which never depend on the rest of the name *)
Definition casync_ext : list string :=
  [".catar"; ".caidx"; ".ext4.caibx"; ".vfat.caibx"; ".ubifs.caibx"; ".img.caibx"; ".squashfs.caibx"].
