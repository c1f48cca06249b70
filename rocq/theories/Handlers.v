(** Model of the update handler selection in src/update_handler.c. *)
From Verif Require Import Base Slot Image.

(** The handler functions, by name (update_handler.c:1036-2637). *)
Inductive handler :=
| H_img_to_fs | H_img_to_raw | H_img_to_ubivol | H_img_to_ubifs | H_img_to_nor | H_img_to_nand
| H_archive_to_ext4 | H_archive_to_ubifs | H_archive_to_vfat | H_archive_to_jffs2
| H_boot_emmc | H_boot_mbr_switch | H_boot_gpt_switch | H_boot_raw_fallback
| H_hook_install.

(** update_handler.c:2645-2706 image_type_map (with ENABLE_EMMC_BOOT_SUPPORT and
    ENABLE_GPT). *)
Definition image_type_map : list (string * string * handler) := [
  ("ext4-caibx", "ext4", H_img_to_fs);
  ("raw-caibx", "ext4", H_img_to_raw);
  ("ext4-caibx", "raw", H_img_to_raw);
  ("vfat-caibx", "raw", H_img_to_raw);
  ("raw-caibx", "raw", H_img_to_raw);
  ("raw-caibx", "vfat", H_img_to_raw);
  ("raw-caibx", "jffs2", H_img_to_raw);
  ("raw-caibx", "nor", H_img_to_raw);
  ("raw-caibx", "nand", H_img_to_raw);
  ("squashfs-caibx", "raw", H_img_to_raw);
  ("squashfs-caibx", "ubivol", H_img_to_ubivol);
  ("ubifs-caibx", "ubivol", H_img_to_ubivol);
  ("raw-caibx", "ubivol", H_img_to_ubivol);
  ("ubifs-caibx", "ubifs", H_img_to_ubifs);
  ("raw-caibx", "ubifs", H_img_to_ubifs);
  ("caidx", "ext4", H_archive_to_ext4);
  ("caidx", "ubifs", H_archive_to_ubifs);
  ("caidx", "vfat", H_archive_to_vfat);
  ("catar", "ext4", H_archive_to_ext4);
  ("ext4", "ext4", H_img_to_fs);
  ("ext4", "raw", H_img_to_raw);
  ("vfat", "vfat", H_img_to_fs);
  ("vfat", "raw", H_img_to_raw);
  ("squashfs", "ubivol", H_img_to_ubivol);
  ("squashfs", "raw", H_img_to_raw);
  ("ubifs", "ubivol", H_img_to_ubivol);
  ("ubifs", "ubifs", H_img_to_ubifs);
  ("raw", "ext4", H_img_to_fs);
  ("raw", "nor", H_img_to_nor);
  ("raw", "nand", H_img_to_nand);
  ("raw", "ubifs", H_img_to_ubifs);
  ("raw", "ubivol", H_img_to_ubivol);
  ("raw", "vfat", H_img_to_fs);
  ("raw", "raw", H_img_to_raw);
  ("raw", "jffs2", H_img_to_raw);
  ("tar", "ext4", H_archive_to_ext4);
  ("tar", "ubifs", H_archive_to_ubifs);
  ("tar", "vfat", H_archive_to_vfat);
  ("tar", "jffs2", H_archive_to_jffs2);
  ("raw", "boot-emmc", H_boot_emmc);
  ("vfat", "boot-mbr-switch", H_boot_mbr_switch);
  ("raw", "boot-mbr-switch", H_boot_mbr_switch);
  ("vfat", "boot-gpt-switch", H_boot_gpt_switch);
  ("ext4", "boot-gpt-switch", H_boot_gpt_switch);
  ("raw", "boot-gpt-switch", H_boot_gpt_switch);
  ("raw", "boot-raw-fallback", H_boot_raw_fallback);
  ("emptyfs", "ext4", H_archive_to_ext4)
].

(** update_handler.c:2752-2765 get_handler_from_type *)
Fixpoint lookup_handler (m : list (string * string * handler)) (t st : string) : option handler :=
  match m with
  | [] => None
  | (t', st', h) :: r => if String.eqb t' t && String.eqb st' st then Some h else lookup_handler r t st
  end.
Definition get_handler_from_type := lookup_handler image_type_map.

(** update_handler.c:2767-2779 is_image_type_supported *)
Definition is_image_type_supported (t : string) : bool :=
  existsb (fun e => String.eqb (fst (fst e)) t) image_type_map.

(** update_handler.c:2779-2803 get_update_handler.  A NULL type makes
    get_handler_from_type return NULL (g_return_val_if_fail). *)
Definition get_update_handler (i : image) (dest : slot) : res handler :=
  if im_install i then Ok H_hook_install
  else match im_type i with
       | None => Err
       | Some t => of_option (get_handler_from_type t (sl_type dest))
       end.

(** g_pattern_match_simple for patterns containing only '*' and literals: '*'
    matches any (possibly empty) sequence. *)
Fixpoint glob (p s : string) : bool :=
  match p with
  | EmptyString => match s with EmptyString => true | _ => false end
  | String c p' =>
      if Ascii.eqb c "*"
      then (fix star (s : string) : bool :=
              glob p' s || match s with EmptyString => false | String _ r => star r end) s
      else match s with
           | String d s' => Ascii.eqb c d && glob p' s'
           | EmptyString => false
           end
  end.

(** update_handler.c:2719-2736 ext_type_map *)
Definition ext_type_map : list (string * string) := [
  ("*.ext4.caibx", "ext4-caibx");
  ("*.vfat.caibx", "vfat-caibx");
  ("*.ubifs.caibx", "ubifs-caibx");
  ("*.img.caibx", "raw-caibx");
  ("*.squashfs.caibx", "squashfs-caibx");
  ("*.squashfs-*.caibx", "squashfs-caibx");
  ("*.catar", "catar");
  ("*.caidx", "caidx");
  ("*.tar*", "tar");
  ("*.tgz", "tar");
  ("*.ext4", "ext4");
  ("*.vfat", "vfat");
  ("*.img", "raw");
  ("*.squashfs-*", "squashfs");
  ("*.squashfs", "squashfs");
  ("*.ubifs", "ubifs")
].

(** update_handler.c:2738-2750 derive_image_type_from_filename_pattern *)
Definition derive_image_type (filename : string) : option string :=
  match find (fun e => glob (fst e) filename) ext_type_map with
  | Some e => Some (snd e)
  | None => None
  end.
