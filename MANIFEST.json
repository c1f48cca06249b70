{
 "claims": [
  {
   "property": "C01",
   "status": "proved",
   "theorems": [
    "C01_slot_states",
    "C01_install_targets",
    "C01_mounted_slots",
    "C01_booted_child_refuted",
    "C01_shared_device_refuted",
    "C01_writes"
   ],
   "note": "Proved for a booted top-level slot (the only kind that may have a bootname). _refuted theorems document that a slot identified as booted by device or name which is itself a child does not protect its siblings/parent, and that two slots configured on the same device are not detected."
  },
  {
   "property": "C02",
   "status": "proved",
   "theorems": [
    "C02_target_group"
   ],
   "note": ""
  },
  {
   "property": "C03",
   "status": "proved",
   "theorems": [
    "C03_plans",
    "C03_plans_no_artifact",
    "C03_refuse_missing_variant"
   ],
   "note": ""
  },
  {
   "property": "C04",
   "status": "proved",
   "theorems": [
    "C04_status_true",
    "C04_torn_rewritten",
    "C04_per_slot_refuted"
   ],
   "note": "For the central status file. Assumes writes persist in program order (handlers fsync, status file replaced by rename). _refuted theorem: no such guarantee for statusfile=per-slot."
  },
  {
   "property": "C05",
   "status": "proved",
   "theorems": [
    "C05_boot_mark_slot",
    "C05_two_boot_slots_refuted",
    "C05_activate_last",
    "C05_bad_first",
    "C05_success"
   ],
   "note": "_refuted theorem: a bundle with images for two root slots that have a bootname aborts the process (g_error), before anything is written."
  },
  {
   "property": "C06",
   "status": "proved",
   "theorems": [
    "C06_skip",
    "C06_content",
    "C06_no_digest_refuted"
   ],
   "note": "_refuted theorem: images without digest (install hook without file) compare equal, so a different bundle's hook can be skipped when install-same=false."
  },
  {
   "property": "C07",
   "status": "proved",
   "theorems": [
    "C07_local",
    "C07_global",
    "C07_update",
    "C07_stable",
    "C07_layout",
    "C07_system",
    "C07_broken",
    "C07_transaction_refuted"
   ],
   "note": "Time stamps are kept up to fractions of a second (GLib's ISO format is a parameter with a law). The transaction id is not one of the fields the loader reads; _refuted theorem: it is lost from the file when any slot is saved after a restart."
  },
  {
   "property": "C08",
   "status": "proved",
   "theorems": [
    "C08_uboot_set_primary",
    "C08_uboot_set_primary_order",
    "C08_uboot_set_primary_order_default",
    "C08_uboot_get_primary_boots"
   ],
   "note": ""
  },
  {
   "property": "C09",
   "status": "proved",
   "theorems": [
    "C09_uboot_mark_bad",
    "C09_uboot_mark_bad_order",
    "C09_uboot_mark_good",
    "C09_uboot_good_undoes_bad_refuted"
   ],
   "note": "_refuted theorem: 'mark good' does not undo 'mark bad' on U-Boot because the slot stays out of BOOT_ORDER."
  },
  {
   "property": "C10",
   "status": "proved",
   "theorems": [
    "C10_uboot_set_primary_crash",
    "C10_uboot_mark_bad_crash"
   ],
   "note": ""
  },
  {
   "property": "C11",
   "status": "proved",
   "theorems": [
    "C11_grub_set_primary",
    "C11_grub_mark_bad",
    "C11_grub_mark_good",
    "C11_grub_get_primary"
   ],
   "note": ""
  },
  {
   "property": "C12",
   "status": "proved",
   "theorems": [
    "C12_barebox_set_primary",
    "C12_barebox_mark_bad",
    "C12_barebox_mark_good",
    "C12_barebox_get_primary"
   ],
   "note": ""
  },
  {
   "property": "C13",
   "status": "proved",
   "theorems": [
    "C13_efi_get_primary",
    "C13_efi_set_primary_bootnext",
    "C13_efi_set_primary_bootorder",
    "C13_efi_set_state",
    "C13_efi_mark_bad",
    "C13_efi_mark_bad_bootnext_refuted",
    "C13_efi_mark_bad_duplicate_refuted",
    "C13_efi_current_bootname_refuted",
    "C13_efi_empty_order_refuted"
   ],
   "note": "Side conditions of mark bad (BootNext not pointing to the slot, unique entry names) are part of the statement; the _refuted theorems show each is needed. Parsing of the efibootmgr output is not modelled."
  },
  {
   "property": "C14",
   "status": "proved",
   "theorems": [
    "C14_mark",
    "C14_mark_ambiguous",
    "C14_mark_unknown",
    "C14_mark_complete"
   ],
   "note": ""
  },
  {
   "property": "C15",
   "status": "proved",
   "theorems": [
    "C15_semver",
    "C15_preorder",
    "C15_accepted",
    "C15_min_rauc_version",
    "C15_hyphen_refuted",
    "C15_big_number_refuted"
   ],
   "note": "SemVer precedence for numbers below 2^64. _refuted: hyphens inside pre-release identifiers are refused; identifiers of 20+ digits compare as text."
  },
  {
   "property": "C16",
   "status": "proved",
   "theorems": [
    "C16_round_trip",
    "C16_accepts",
    "C16_length",
    "C16_value"
   ],
   "note": ""
  },
  {
   "property": "C17",
   "status": "proved",
   "theorems": [
    "C17_pread",
    "C17_pread_total",
    "C17_pwrite",
    "C17_pwrite_total",
    "C17_lazy",
    "C17_read",
    "C17_write"
   ],
   "note": "read/write/pread/pwrite are an oracle (short counts, EINTR, errors in any order). The _total theorems: the loops terminate with an answer for every oracle that does not fail forever with EINTR."
  },
  {
   "property": "C18",
   "status": "proved",
   "theorems": [
    "C18_raw_image",
    "C18_copy",
    "C18_copy_total",
    "C18_short_refuted"
   ],
   "note": "C18_raw_image is the raw image handler on a device; C18_copy the stream copy. _refuted theorem: the stream copy itself reports success when the input ends before the announced size; the callers' size checks are what catches it."
  },
  {
   "property": "C19",
   "status": "proved",
   "theorems": [
    "C19_open",
    "C19_sound",
    "C19_complete",
    "C19_smallest_refuted",
    "C19_long_index_refuted"
   ],
   "note": "Completeness holds without an upper validity limit, or when the hash is not the smallest one of the index; the _refuted theorems show the missed chunk otherwise, and the one for index files that are longer than the data. The missed lookups only cost a re-read from the bundle."
  },
  {
   "property": "C20",
   "status": "proved",
   "theorems": [
    "C20_adaptive",
    "C20_write_image",
    "C20_short_index_refuted",
    "C20_small_target_refuted"
   ],
   "note": "The hash function is a parameter: a block of the target is equal to that of the image, or these two blocks are a collision. The index file of the bundle has to describe and cover the image: _refuted theorem for an index shorter than the image (success with a truncated target). casync is not modelled."
  },
  {
   "property": "C21",
   "status": "proved",
   "theorems": [
    "C21_create",
    "C21_verify",
    "C21_complete",
    "C21_create_verify",
    "C21_binding",
    "C21_layout"
   ],
   "note": "Hash function as a parameter with 32 byte results. Verification succeeds exactly for files in the dm-verity format given in VeritySpec.v; two payloads accepted with the same root hash are equal, or two blocks at the same place collide. stdio buffering and OpenSSL errors are not modelled."
  },
  {
   "property": "C22",
   "status": "proved",
   "theorems": [
    "C22_mbr",
    "C22_gpt",
    "C22_mbr_size_refuted",
    "C22_mbr_trunc_refuted",
    "C22_mbr_clear_refuted"
   ],
   "note": "Block device model with sector-granular crash states: every sector written after the last fsync may or may not be durable. Assumptions: one sector is transferred whole, bytes < 256, sector size 512..65536, region below 2^32 sectors, halves < 4 GiB; for GPT libfdisk is trusted to replace the table atomically. _refuted theorems: the size of the booted partition is not checked (a booted partition covering both halves is partly overwritten); LBA truncation to 32 bits above 2 TiB; the 32-bit counter of the clear loop wraps for halves >= 4 GiB and the booted half is overwritten."
  },
  {
   "property": "C23",
   "status": "proved",
   "theorems": [
    "C23_emmc",
    "C23_reject",
    "C23_readback",
    "C23_unset_refuted"
   ],
   "note": "PARTITION_CONFIG as a byte; register writes may be lost or report an error late. _refuted theorem: if no boot partition was enabled before, a register write that had no effect is reported as success."
  },
  {
   "property": "C24",
   "status": "proved",
   "theorems": [
    "C24_one_complete",
    "C24_rom",
    "C24_reorder_refuted",
    "C24_hang_refuted",
    "C24_oversize_refuted"
   ],
   "note": "Assumes the announced size equals the image length. C24_one_complete needs no assumption on write order; C24_rom (what a ROM that tests the primary header boots) needs in-order durability, and C24_reorder_refuted shows that it does. Further _refuted theorems: a region that starts at the end of the device makes the handler loop forever; an image longer than announced destroys both halves before the error is reported."
  },
  {
   "property": "C25",
   "status": "proved",
   "theorems": [
    "C25_write",
    "C25_history",
    "C25_files",
    "C25_one_file_refuted"
   ],
   "note": "Histories of writes, rotations, failures and crashes of one logger which owns its files; the formatting of a line is not modelled. _refuted theorem: max-files=1 keeps two files."
  },
  {
   "property": "C26",
   "status": "proved",
   "theorems": [
    "C26_total",
    "C26_recent",
    "C26_min",
    "C26_max",
    "C26_max_refuted"
   ],
   "note": "Rationals instead of gdouble. _refuted theorem: the maximum starts from G_MINDOUBLE, so it is wrong if no value is positive."
  },
  {
   "property": "C27",
   "status": "proved",
   "theorems": [
    "C27_delay",
    "C27_spacing",
    "C27_gate",
    "C27_no_repeat",
    "C27_reboot",
    "C27_installs",
    "C27_done",
    "C27_reboots",
    "C27_weekly_refuted",
    "C27_busy_loop_refuted",
    "C27_no_version_refuted"
   ],
   "note": "The delay theorem covers intervals below 2147484 s. _refuted theorems: a weekly interval overflows the 32 bit milliseconds so the server is polled every 10 s; a manifest without version aborts the service. No-repeat holds within one run of the service."
  },
  {
   "property": "C28",
   "status": "proved",
   "theorems": [
    "C28_progress",
    "C28_explicit_refuted"
   ],
   "note": "Rationals instead of gfloat (no rounding). Proper nesting: substeps fit into the declared number, explicit percentages only on inner steps without substeps. _refuted theorem: the code is meant to reject explicit percentages on steps with substeps but tests substeps_total < 0; then the reported percentage can go down."
  },
  {
   "property": "C29",
   "status": "proved",
   "theorems": [
    "C29_roots",
    "C29_cycle_rejected",
    "C29_missing_parent_rejected",
    "C29_accepted",
    "C29_order_independent",
    "C29_order_refuted",
    "C29_empty_refuted"
   ],
   "note": "Whole load_config is modelled (text format of GKeyFile, path resolution and shell splitting are not). Hash orders are parameters; with chains of at most 101 links the result does not depend on them. _refuted theorems: a chain of 102 links is accepted or refused depending on the hash order; an empty parent= is silently ignored."
  },
  {
   "property": "C30",
   "status": "proved",
   "theorems": [
    "C30_formats",
    "C30_loaded"
   ],
   "note": "Exact characterisation (iff) of parse_bundle_formats plus the effect in load_config."
  },
  {
   "property": "C31",
   "status": "proved",
   "theorems": [
    "C31_unique",
    "C31_check"
   ],
   "note": "load_config only accepts unique boot names; the check itself accepts exactly those tables, in every order."
  },
  {
   "property": "C32",
   "status": "proved",
   "theorems": [
    "C32_round_trip",
    "C32_parsed",
    "C32_min_rauc_refuted",
    "C32_size_refuted"
   ],
   "note": "_refuted theorems: prepare_manifest drops min-rauc-version; sizes of 2^63 and more come back negative."
  },
  {
   "property": "C33",
   "status": "proved",
   "theorems": [
    "C33_plain",
    "C33_external",
    "C33_strict",
    "C33_emptyfs_refuted"
   ],
   "note": "_refuted theorem: an emptyfs image without install hook passes the checks without digest/size and aborts later."
  },
  {
   "property": "C34",
   "status": "proved",
   "theorems": [
    "C34_parse",
    "C34_injective",
    "C34_total"
   ],
   "note": ""
  },
  {
   "property": "C35",
   "status": "proved",
   "theorems": [
    "C35_local",
    "C35_remote",
    "C35_append",
    "C35_resign"
   ],
   "note": ""
  },
  {
   "property": "C36",
   "status": "proved",
   "theorems": [
    "C36_access",
    "C36_unchecked",
    "C36_unaligned_refuted",
    "C36_remount_refuted"
   ],
   "note": "CMS, squashfs and dm-verity are parameters of the theorem. _refuted theorems: a signed local verity bundle of unaligned size aborts in the payload check (g_assert); mounting a plain bundle twice aborts."
  },
  {
   "property": "C37",
   "status": "proved",
   "theorems": [
    "C37_access",
    "C37_enforce"
   ],
   "note": ""
  },
  {
   "property": "C38",
   "status": "proved",
   "theorems": [
    "C38_round_trip",
    "C38_activate"
   ],
   "note": "For repositories without stale temporary links; one enabled artifact per name. Aliases: see C40_alias_refuted."
  },
  {
   "property": "C39",
   "status": "proved",
   "theorems": [
    "C39_prune",
    "C39_links",
    "C39_uppercase_refuted",
    "C39_hidden_link_refuted"
   ],
   "note": "Exact description of what pruning removes, for every directory. \"Every symlink resolves after\" holds for visible links to artifacts with lower-case digests; the _refuted theorems show the other cases."
  },
  {
   "property": "C40",
   "status": "proved",
   "theorems": [
    "C40_crash",
    "C40_history",
    "C40_old_or_new",
    "C40_success",
    "C40_live",
    "C40_stale_link_refuted",
    "C40_alias_refuted",
    "C40_alias_dangling_refuted"
   ],
   "note": "Any number of runs, any failing system calls, any crash point and any subset of unsynced changes. _refuted: a stale temporary link blocks all later updates; alias links keep the old version or dangle."
  },
  {
   "property": "C41",
   "status": "proved",
   "theorems": [
    "C41_success",
    "C41_data",
    "C41_framed",
    "C41_range",
    "C41_bounded",
    "C41_error",
    "C41_answered",
    "C41_abort",
    "C41_short_refuted",
    "C41_wrong_range_refuted"
   ],
   "note": "Any interleaving of client requests and transfer results. _refuted theorems: a short 206 response is not retried (success header without data, then abort); the Content-Range of a read response is not checked. The abort theorem lists all causes."
  },
  {
   "property": "C42",
   "status": "proved",
   "theorems": [
    "C42_handler_fits",
    "C42_handler_order",
    "C42_handler_refused",
    "C42_type_from_filename",
    "C42_type_from_filename_refuted"
   ],
   "note": "_refuted theorem: a file whose whole name is the extension (\".tar\") is not recognised by the patterns."
  },
  {
   "property": "C43",
   "status": "proved",
   "theorems": [
    "C43_gates",
    "C43_refused",
    "C43_pre_install_refuted",
    "C43_course"
   ],
   "note": "_refuted theorem: the pre-install handler of system.conf already runs before the compatible and version checks. An install-check hook replaces the compatible check (as documented)."
  },
  {
   "property": "C44",
   "status": "proved",
   "theorems": [
    "C44_key",
    "C44_vars",
    "C44_vars_complete",
    "C44_collision_refuted"
   ],
   "note": ""
  },
  {
   "property": "C45",
   "status": "proved",
   "theorems": [
    "C45_select_policy",
    "C45_select_exists"
   ],
   "note": ""
  },
  {
   "property": "C46",
   "status": "proved",
   "theorems": [
    "C46_boot_safe",
    "C46_uboot",
    "C46_grub",
    "C46_barebox",
    "C46_efi_bootorder",
    "C46_efi_bootnext_refuted",
    "C46_child_only_refuted",
    "C46_root_only_refuted"
   ],
   "note": "Generic theorem for every boot loader with the stated laws, plus the laws for U-Boot, GRUB, barebox and EFI with BootOrder. C46_efi_bootnext_refuted: with BootNext (the default) a second installation interrupted while writing leaves the firmware booting the torn slot. The _refuted theorems show that the conditions on the bundle are needed."
  },
  {
   "property": "C47",
   "status": "proved",
   "theorems": [
    "C47_known_options",
    "C47_slots",
    "C47_system",
    "C47_jffs2_refuted"
   ],
   "note": "_refuted theorem: the documented slot type jffs2 is always refused."
  },
  {
   "property": "C48",
   "status": "proved",
   "theorems": [
    "C48_sizes",
    "C48_regions",
    "C48_junk_refuted"
   ],
   "note": "_refuted theorem: junk such as banana, 10 MiB (=10) or overflowing values is accepted."
  },
  {
   "property": "C49",
   "status": "proved",
   "theorems": [
    "C49_accepted",
    "C49_decimal_size",
    "C49_first",
    "C49_answered",
    "C49_errors",
    "C49_stale_size_refuted"
   ],
   "note": "curl is an oracle (headers, chunks, code, own error). _refuted theorem: the size announced by a failed attempt is used if the successful response has none."
  },
  {
   "property": "C50",
   "status": "proved",
   "theorems": [
    "C50_protocol",
    "C50_refuses",
    "C50_serves",
    "C50_no_abort",
    "C50_completes",
    "C50_operation_only",
    "C50_operation_set",
    "C50_operation_refuted",
    "C50_auto_operation_refuted",
    "C50_auto_abort_refuted"
   ],
   "note": "Any schedule. _refuted theorems: a refused InstallBundle sets the Operation property to idle and stops the progress reports while the first installation goes on; an automatic installation never sets it; autoinstall while busy aborts the service."
  },
  {
   "property": "C51",
   "status": "proved",
   "theorems": [
    "C51_rauc_slot",
    "C51_external",
    "C51_barebox",
    "C51_custom",
    "C51_efi",
    "C51_root",
    "C51_unknown",
    "C51_no_cmdline",
    "C51_override",
    "C51_targets",
    "C51_order_refuted",
    "C51_substring_refuted",
    "C51_root_suffix_refuted",
    "C51_efi_abort_refuted"
   ],
   "note": "regular expression search, strstr and the order of the sources modelled literally; r_realpath, the output of efibootmgr and of the custom backend are inputs. Findings: the manual lists rauc.slot= before rauc.external, the code evaluates them the other way round; all parameters are searched for as substrings (a parameter containing rauc.external, or one whose name ends in root=, makes the booted slot an installation target); a missing EFI BootCurrent dereferences NULL."
  },
  {
   "property": "C52",
   "status": "proved",
   "theorems": [
    "C52_layout",
    "C52_odd_size",
    "C52_encrypt_bundle",
    "C52_round_trip",
    "C52_room_refuted",
    "C52_read_refuted",
    "C52_short_tail_refuted",
    "C52_plaintext_left",
    "C52_plaintext_refuted"
   ],
   "note": "AES-CBC is a parameter (length-preserving, decryption inverts encryption). Findings: fwrite/fclose results are ignored and an fread error counts as the end of the file, so a full file system or a read error at a sector boundary yields a truncated payload with success; the decrypted bundle is written to tmpdir+'decrypted.raucb' without a '/', so it is not removed with tmpdir: every extraction leaves the plain text behind; a rest shorter than a sector after the payload makes decryption fail in spite of the limit (does not occur with a hash tree)."
  },
  {
   "property": "C53",
   "status": "proved",
   "theorems": [
    "C53_success",
    "C53_completes",
    "C53_limit",
    "C53_too_large",
    "C53_existing",
    "C53_short_file_refuted"
   ],
   "note": "curl is an oracle that is honest about success; free space is needed for C53_success. Finding (C53_short_file_refuted): the results of fflush and fclose are ignored, so on a full file system the last buffer can be lost although the download reports success (the bundle's signature check catches this later)."
  },
  {
   "property": "C54",
   "status": "proved",
   "theorems": [
    "C54_file",
    "C54_defaults",
    "C54_complete",
    "C54_target",
    "C54_cmdline",
    "C54_override",
    "C54_parse_override",
    "C54_compatible"
   ],
   "note": "Uses the model of load_config from C47; overrides are applied to the parsed key file (escaping of raw values not modelled). Note: in optional mode a file which exists but cannot be read (permissions) is treated like a missing one."
  },
  {
   "property": "C55",
   "status": "proved",
   "theorems": [
    "C55_source",
    "C55_handler",
    "C55_handler_fails",
    "C55_trim",
    "C55_images",
    "C55_empty_refuted",
    "C55_artifact_variant_refuted"
   ],
   "note": "Finding (C55_artifact_variant_refuted): a bundle with variants of an artifact passes all checks and the images of all variants are installed into the repository. Device tree property and files as C strings (up to the first NUL). Finding (C55_empty_refuted): a handler printing 'RAUC_SYSTEM_VARIANT=' replaces the configured variant by the empty string. The handler's stderr is parsed as well as its stdout."
  },
  {
   "property": "C56",
   "status": "proved",
   "theorems": [
    "C56_signed",
    "C56_accepts",
    "C56_accepts_plain",
    "C56_no_keyring",
    "C56_sign",
    "C56_append_refuted",
    "C56_verify_bytes",
    "C56_verify_bytes_accepts",
    "C56_append_keeps",
    "C56_append_certs",
    "C56_codesign",
    "C56_purpose"
   ],
   "note": "OpenSSL is a parameter: d2i_CMS_bio, X509_verify_cert and the signature arithmetic; 'honest'/'complete' in SignatureSpec.v say what is assumed of X509_verify_cert, CMS_verify is modelled on top (every signer needs a chain and a right signature). Finding (C56_append_refuted): 'rauc resign --append' adds a second signer, but cms_get_cert_chain refuses every signature with more than one signer, so such a bundle is refused by every device, whatever its keyring. An empty plain payload (size 0) is treated as refused (the code would check the whole file). C56_verify_bytes/_accepts and C56_append_keeps describe cms_verify_bytes itself, which does allow several signers."
  },
  {
   "property": "C57",
   "status": "proved",
   "theorems": [
    "C57_derive",
    "C57_completes",
    "C57_resign",
    "C57_replace",
    "C57_replace_checked",
    "C57_settings",
    "C57_double_free_refuted",
    "C57_extract",
    "C57_extract_partial_refuted",
    "C57_shared",
    "C57_shared_removed_refuted"
   ],
   "note": "The input is assumed not to change between check and copy; removing the partial output is assumed to succeed. Findings: C57_double_free_refuted - replace-signature with --signing-keyring and no configured keyring leaves the configuration pointing to the signing keyring string, which r_context_clean then frees twice; C57_extract_partial_refuted - extract-signature leaves a truncated file behind when writing fails; C57_shared_removed_refuted - a file another program creates at the output path after the existence check is not overwritten, but it is removed on the error path."
  },
  {
   "property": "C58",
   "status": "proved",
   "theorems": [
    "C58_failures",
    "C58_hook_counts",
    "C58_pre_hook_first",
    "C58_order",
    "C58_unmounted",
    "C58_forgotten",
    "C58_confined",
    "C58_mount_commands",
    "C58_changes",
    "C58_changes_indexed",
    "C58_casync",
    "C58_preconditions",
    "C58_too_large",
    "C58_write_protection",
    "C58_tidy",
    "C58_closed",
    "C58_install_hook"
   ],
   "note": "Programs, hooks and device operations are single actions with an arbitrary outcome; what a hook itself does to devices is outside the model. The byte level of raw copies and boot regions is in C13-C16 and C27 ff."
  },
  {
   "property": "C59",
   "status": "proved",
   "theorems": [
    "C59_environment",
    "C59_mounted",
    "C59_partition",
    "C59_region",
    "C59_emmc",
    "C59_vfat_label",
    "C59_vfat_label_chars",
    "C59_vfat_label_length",
    "C59_tar_flag",
    "C59_vfat_label_unique_refuted",
    "C59_pre_hook_unmounted_refuted",
    "C59_emmc_environment_refuted"
   ],
   "note": "Findings: C59_emmc_environment_refuted - hooks of boot-emmc slots get an empty RAUC_SLOT_BOOTNAME and RAUC_SLOT_PARENT and the resolved device instead of device=; C59_pre_hook_unmounted_refuted - the pre-install hook of an archive for an ext4 or vfat slot runs with the slot unmounted, contrary to the documentation; C59_vfat_label_unique_refuted - bootloader.0 and bootloader.1 get the same label BOOTLOADER_."
  },
  {
   "property": "C60",
   "status": "proved",
   "theorems": [
    "C60_the_check_ends",
    "C60_intact_bundles_pass",
    "C60_first_block_of_every_chunk_is_checked",
    "C60_exact_if_reads_fail_as_a_whole",
    "C60_exact_for_the_page_cache",
    "C60_missed_corruption",
    "C60_complete_check_refuted"
   ],
   "note": "The general statement of the documentation is refuted for the page cache (C60_complete_check_refuted); the exact condition under which bundles pass is proved."
  },
  {
   "property": "C61",
   "status": "proved",
   "theorems": [
    "C61_failure_gives_everything_back",
    "C61_mounted_stack",
    "C61_unmounting_gives_everything_back",
    "C61_failed_unmount_changes_nothing",
    "C61_checked_before_mounting",
    "C61_unverified_is_never_mounted",
    "C61_ten_tries",
    "C61_failure_without_error",
    "C61_every_failure_has_an_error_refuted"
   ],
   "note": "The claim that every failure has an error is refuted for a manifest whose verity-size equals the bundle size (C61_every_failure_has_an_error_refuted); C61_failure_without_error shows that this is the only case."
  },
  {
   "property": "C62",
   "status": "proved",
   "theorems": [
    "C62_inputs_untouched",
    "C62_existing_output",
    "C62_no_partial_output",
    "C62_odd_success",
    "C62_fakeroot",
    "C62_success",
    "C62_images",
    "C62_no_links",
    "C62_confined_without_dotdot",
    "C62_converted",
    "C62_requirements",
    "C62_tools",
    "C62_dropped",
    "C62_index",
    "C62_completes",
    "C62_abort_only",
    "C62_success_without_bundle_refuted",
    "C62_workdir_removal_refuted",
    "C62_never_aborts_refuted",
    "C62_confined_refuted",
    "C62_image_present_refuted",
    "C62_shared_file_refuted"
   ],
   "note": "Refuted parts: success can be reported (with an error set) although no bundle exists, when the fakeroot environment cannot be set up or the working directory cannot be removed (C62_success_without_bundle_refuted, C62_workdir_removal_refuted; C62_odd_success shows these are the only cases); a manifest with verity-*/crypt-key fields aborts the process and leaves output and working directory (C62_never_aborts_refuted, C62_abort_only); a symbolic link \"..\" pulls files from beside the content directory into the bundle (C62_confined_refuted; C62_confined_without_dotdot); \"convert=\" without methods or two images sharing a file lose the image (C62_image_present_refuted, C62_shared_file_refuted)."
  },
  {
   "property": "C63",
   "status": "proved",
   "theorems": [
    "C63_existing_output",
    "C63_outcome",
    "C63_success",
    "C63_tmp",
    "C63_leak",
    "C63_nothing_left_refuted",
    "C63_commands",
    "C63_removes_inside_refuted",
    "C63_shared",
    "C63_shared_refuted",
    "C63_converted_refuted",
    "C63_completes"
   ],
   "note": "Findings (refuted): temp directories of converted archives are never removed; file names with ../ in the inner manifest lead to g_remove outside the temporary directory before the manifest check fails; convert=keep images lose the kept file; bundles in which two images share a file cannot be converted. The tree effects of names with a slash are not followed (the calls are in the log)."
  },
  {
   "property": "C64",
   "status": "proved",
   "theorems": [
    "C64_info",
    "C64_info_names",
    "C64_info_meta",
    "C64_meta_refuted",
    "C64_status",
    "C64_status_names",
    "C64_status_stops",
    "C64_end_to_end",
    "C64_primary_refuted",
    "C64_blank_refuted",
    "C64_count_refuted"
   ],
   "note": "A shell evaluator written from the POSIX description is run on the modelled output text: the text evaluates for every input, and the value of every variable is proved (info: head, images, meta; status: head, slots, details, repositories, artifacts, instances; nothing for numbers out of range). End to end: service slots -> D-Bus dictionaries -> client slots -> text -> variables, for every hash table order. Refuted: two meta keys can share a variable (a/b-c and a-b/c); an unknown primary slot is shown as \"(null)\", not empty; a blank in a slot name breaks the correspondence between RAUC_SYSTEM_SLOTS and the numbers; a counter without time stamp is lost between service and client. rauc status aborts if a slot state is unknown. Not modelled: character set conversion by g_print."
  },
  {
   "property": "C65",
   "status": "proved",
   "theorems": [
    "C65_always",
    "C65_real",
    "C65_system",
    "C65_lists",
    "C65_slots",
    "C65_targets",
    "C65_image",
    "C65_no_image",
    "C65_variant_refuted",
    "C65_bootname_refuted",
    "C65_inherited",
    "C65_meta",
    "C65_meta_shadowed_refuted",
    "C65_launch",
    "C65_custom",
    "C65_custom_bad",
    "C65_line_plain",
    "C65_line_error",
    "C65_line_status",
    "C65_line_image",
    "C65_line_unknown",
    "C65_words_dropped_refuted",
    "C65_hook_env",
    "C65_hook_result",
    "C65_silent_reject_refuted"
   ],
   "note": "The environment is the list of strings given to execve, built with GLib's semantics for setenv (replace in place, overwrite flag); its value for every name is determined completely. Composed with the model of target selection (C01) and of the system-info handler (C55). Refuted: RAUC_IMAGE_NAME_n names the first image of the class even if another variant is installed; RAUC_CURRENT_BOOTNAME may be a device path although the slot has a bootname; an inherited RAUC_META_ variable replaces the bundle's; only the first word of a handler/bootloader/image status is shown; a hook that rejects without a message is not reported as a rejection. g_shell_parse_argv is a parameter (its behaviour for quoted words is in C63)."
  },
  {
   "property": "C66",
   "status": "proved",
   "theorems": [
    "C66_primary",
    "C66_primary_complete",
    "C66_primary_error",
    "C66_state",
    "C66_set",
    "C66_history",
    "C66_report",
    "C66_current",
    "C66_current_blank_refuted",
    "C66_noop"
   ],
   "note": "The backend is an arbitrary function of its own state and arguments. Refuted: for get-current only the newline is removed, so a bootname followed by a blank or carriage return is accepted for get-primary but does not match any slot as booted slot. Not modelled: environment and error texts; the boot loaders with text tools are C08-C13."
  },
  {
   "property": "C67",
   "status": "proved",
   "theorems": [
    "C67_output",
    "C67_read",
    "C67_primary",
    "C67_state",
    "C67_primary_as_c13",
    "C67_state_as_c13",
    "C67_succeeds",
    "C67_calls",
    "C67_empty_label_refuted",
    "C67_newline_label_refuted"
   ],
   "note": "The tool is an arbitrary function of its state and arguments with the stated relation to the boot variables; the record of assumptions is met by an example tool. Refuted: an entry with an empty label shown without device path is not seen and is dropped from BootOrder when rauc sets the primary; a label with a newline is read as further lines. Simplified: the regular expressions are written as functions on lines; only the newline ends a line; UTF-8 validation of the output is not modelled."
  },
  {
   "property": "C68",
   "status": "proved",
   "theorems": [
    "C68_history",
    "C68_run",
    "C68_in_use",
    "C68_names",
    "C68_unsynced_refuted",
    "C68_repair_refuted"
   ],
   "note": "Disk model: after syncfs the visible state; since then each item independently any state it went through; fsync of the repository directory makes its entries durable, not objects. Artifact = (name, digest); temporary links are in C40. C68_unsynced_refuted and C68_repair_refuted show what is not guaranteed."
  },
  {
   "property": "C69",
   "status": "proved",
   "theorems": [
    "C69_options_strict",
    "C69_options_roundtrip",
    "C69_options_inspect",
    "C69_options_used",
    "C69_exit",
    "C69_wakes",
    "C69_early_refuted",
    "C69_late_refuted",
    "C69_path",
    "C69_path_refuted",
    "C69_inspect",
    "C69_inspect_secret"
   ],
   "note": "Events of one client are dispatched in order, in batches of any size. g_filename_from_uri and file tests are arbitrary functions. C69_early_refuted, C69_late_refuted and C69_path_refuted show what is not guaranteed."
  },
  {
   "property": "C70",
   "status": "proved",
   "theorems": [
    "C70_requests",
    "C70_agent",
    "C70_poll_tls",
    "C70_information",
    "C70_handler_lines",
    "C70_standard_lines",
    "C70_uptime_refuted",
    "C70_answer",
    "C70_same_configuration",
    "C70_conditional",
    "C70_fresh",
    "C70_failed_keeps",
    "C70_redirect_refuted"
   ],
   "note": "libcurl is trusted to do what its options say; curl_getdate is an arbitrary function. C70_uptime_refuted and C70_redirect_refuted show what is not guaranteed."
  },
  {
   "property": "C71",
   "status": "proved",
   "theorems": [
    "C71_run",
    "C71_one_meaning",
    "C71_refused",
    "C71_nothing",
    "C71_verification",
    "C71_checked_first",
    "C71_keys",
    "C71_readonly",
    "C71_outside",
    "C71_dot_refuted",
    "C71_sibling_refuted",
    "C71_write_slot_refuted"
   ],
   "note": "GOption's parsing is trusted; the operations succeed or fail as an arbitrary oracle says (they are the subject of other properties). C71_dot_refuted, C71_sibling_refuted and C71_write_slot_refuted show what is not guaranteed."
  },
  {
   "property": "C72",
   "status": "proved",
   "theorems": [
    "C72_once",
    "C72_counts",
    "C72_hash",
    "C72_no_boot_id",
    "C72_runs",
    "C72_links",
    "C72_active_link",
    "C72_two_active_refuted"
   ],
   "note": "Events as passed to the logging function; what happens to them is C25. Nothing else changes the system section of the status file. C72_two_active_refuted shows what is not guaranteed."
  },
  {
   "property": "C73",
   "status": "proved",
   "theorems": [
    "C73_delivered",
    "C73_percentage",
    "C73_ends",
    "C73_no_crash",
    "C73_empty_refuted"
   ],
   "note": "The image file is constant (verified mount); sum_size * 100 does not overflow (images below 92 PB). C73_empty_refuted shows the crash."
  },
  {
   "property": "C74",
   "status": "proved",
   "theorems": [
    "C74_readable_log_can_be_read_back",
    "C74_short_log_is_one_line_per_event",
    "C74_lines",
    "C74_line_breaks_forge_entries_refuted",
    "C74_installation_logged_truthfully"
   ],
   "note": "C74_line_breaks_forge_entries_refuted: with a line break in a bundle version two different event sequences give the same log text. The steps of the installation are opaque outcomes here (they are modelled in other files); JSON formats are left to json-glib."
  },
  {
   "property": "C75",
   "status": "proved",
   "theorems": [
    "C75_other_files_untouched",
    "C75_index_origin",
    "C75_seed_index_origin",
    "C75_one_index_left",
    "C75_index_found_again"
   ],
   "note": "One slot, central status file. That a wrong or stale index cannot lead to wrong slot contents is C20; digests are 64 hex digits by C33."
  },
  {
   "property": "C76",
   "status": "proved",
   "theorems": [
    "C76_write",
    "C76_unsigned",
    "C76_provenance",
    "C76_status_true",
    "C76_boot_safe"
   ],
   "note": "End-to-end composition of the models of C56 (signatures), C35-C37 (bundles), C43 (gates), C01-C06 and C46 (installation). Custom handlers and hooks run only under the same gates (C43), what they do themselves is outside the model. The file of a plain bundle is assumed not to change once enforce_bundle_exclusive succeeded (steady)."
  },
  {
   "property": "C77",
   "status": "proved",
   "theorems": [
    "C77_rm_tree",
    "C77_rm_complete",
    "C77_open",
    "C77_prune",
    "C77_fifo_refuted",
    "C77_device_refuted",
    "C77_names"
   ],
   "note": "nftw(3) is modelled after glibc (FTW_DEPTH|FTW_MOUNT|FTW_PHYS). The walk is atomic: nobody else changes the tree meanwhile; paths leading to the tree are assumed free of links (the example C77_example_via_link shows why)."
  },
  {
   "property": "C78",
   "status": "proved",
   "theorems": [
    "C78_output",
    "C78_completes",
    "C78_depends",
    "C78_recipient",
    "C78_others",
    "C78_install",
    "C78_resign_refuted"
   ],
   "note": "CMS_encrypt/CMS_decrypt are parameters with the laws honest_box (sealed data is enveloped, recipients open it, others do not get the content). Secrecy of the cipher itself is not modelled, only which data goes where. PKCS#11 loading of keys is an outcome."
  },
  {
   "property": "C79",
   "status": "proved",
   "theorems": [
    "C79_detects",
    "C79_fails",
    "C79_not_written",
    "C79_alias_refuted",
    "C79_shared_refuted",
    "C79_unrelated_refuted"
   ],
   "note": "Mounts made between the check and the write are not seen (the kernel refuses O_EXCL opens of mounted block devices, which is not modelled). \\d of the regular expression is taken as ASCII digits."
  },
  {
   "property": "C80",
   "status": "proved",
   "theorems": [
    "C80_signed",
    "C80_accepts",
    "C80_values",
    "C80_slots",
    "C80_write",
    "C80_install",
    "C80_boot_safe"
   ],
   "note": "Composes C02, C36-C38, C41, C43, C56, C57 and C76; certificates are abstract (validity, purpose and issue relations are parameters), as is the CMS format."
  },
  {
   "property": "C81",
   "status": "proved",
   "theorems": [
    "C81_nothing_left",
    "C81_history",
    "C81_left",
    "C81_descriptors",
    "C81_mount_descriptors",
    "C81_hangs",
    "C81_aborts",
    "C81_mounted",
    "C81_mount",
    "C81_root",
    "C81_user",
    "C81_dead_server_refuted",
    "C81_no_leak_refuted",
    "C81_no_hang_refuted",
    "C81_group_zero_refuted"
   ],
   "note": "Descriptor numbers are never reused in the model; the dm devices on top are C61, requests and replies C33, C34 and C70."
  },
  {
   "property": "C82",
   "status": "proved",
   "theorems": [
    "C82_unchanged",
    "C82_relative",
    "C82_means",
    "C82_no_file",
    "C82_config",
    "C82_status"
   ],
   "note": "g_path_get_dirname and g_build_filename are modelled from GLib's sources. grubenv, the custom backend and artifact repositories use the same function (use_paths) but are not connected to the text."
  },
  {
   "property": "C83",
   "status": "proved",
   "theorems": [
    "C83_completed",
    "C83_property",
    "C83_working",
    "C83_quiet",
    "C83_progress",
    "C83_printed",
    "C83_printed_refuted"
   ],
   "note": "The property code generated by gdbus-codegen is modelled from its generator; which requests are refused is C50, the client's exit code C69."
  },
  {
   "property": "C84",
   "status": "proved",
   "theorems": [
    "C84_info_json_says_what_the_manifest_says",
    "C84_info_json2_says_what_the_manifest_says",
    "C84_info_json_with_dumps_refuted",
    "C84_status_json_says_what_is_known",
    "C84_status_json_from_the_service",
    "C84_status_json_unknown_state_aborts",
    "C84_json_log_can_be_read_back",
    "C84_compact_log_is_one_line_per_event",
    "C84_a_generator_as_assumed"
   ],
   "note": "json-glib's generator is a parameter: assumed is that its text is JSON for the tree, has no line breaks when compact, and that objects begin and end with a brace (C84_a_generator_as_assumed shows such a generator). The JSON reader is an independent specification."
  },
  {
   "property": "C85",
   "status": "proved",
   "theorems": [
    "C85_duration_says_the_seconds",
    "C85_duration_has_one_meaning",
    "C85_durations_distinct",
    "C85_progress_bar",
    "C85_progress_bar_grows",
    "C85_empty_at_zero_refuted",
    "C85_fits_narrow_terminal_refuted",
    "C85_progress_line",
    "C85_progress_lines_distinct"
   ],
   "note": "The escape sequences around the two terminal lines are left out."
  },
  {
   "property": "C86",
   "status": "proved",
   "theorems": [
    "C86_installed_artifact_is_the_wanted_one",
    "C86_same_tree_however_converted",
    "C86_checked_manifests_do_not_crash",
    "C86_files_are_copied_unchanged",
    "C86_every_type_fits_refuted"
   ],
   "note": "What tar, cp and the composefs installation (C68) make of their source is a parameter; what bundle creation puts into the bundle is the specification of C62's conversions."
  },
  {
   "property": "C87",
   "status": "proved",
   "theorems": [
    "C87_how_often_a_slot_is_shown",
    "C87_each_slot_once",
    "C87_children_below_their_parent",
    "C87_every_slot_has_a_line",
    "C87_what_a_line_shows",
    "C87_lines_of_a_slot",
    "C87_header",
    "C87_only_the_primary_is_marked",
    "C87_each_slot_once_always_refuted"
   ],
   "note": "The output is a list of lines; line breaks inside configured values are not split. Parents are top-level slots (C29)."
  }
 ]
}