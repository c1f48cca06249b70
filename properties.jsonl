{"id": "C01", "title": "Install never targets the running system", "statement": "Whatever the system configuration and the boot state, when an installation starts from a booted top-level slot, no slot that is written by the installation is the booted slot or a slot belonging to it (a child of it), and no mounted slot is written unless its configuration and the bundle explicitly allow it. (A child slot identified as booted through its device name, and two slots configured on the same device, are outside this guarantee; both limits are exhibited as refutations.)", "quantifier": "every slot table whose parent links have been resolved, every booted identifier (bootname, slot name or device), every set of slot status records", "why_tests_cant": "Slot tables, parent links and status records can be combined in unboundedly many ways; tests fix one or two A/B layouts.", "anchors": ["src/install.c: determine_slot_states, select_inactive_slot_class_member, determine_target_install_group"]}
{"id": "C02", "title": "One consistent target group", "statement": "The set of slots chosen as installation target contains at most one slot per slot class, every chosen slot is either the chosen root slot of its class or a child of a chosen root slot, and every chosen slot is inactive.", "quantifier": "every slot table, activity state and status record set", "why_tests_cant": "Needs to hold for arbitrary tables of roots and children.", "anchors": ["src/install.c: determine_target_install_group, select_inactive_slot_class_member"]}
{"id": "C03", "title": "Image selection by variant", "statement": "For every slot class mentioned in the bundle exactly one image is planned: the image whose variant equals the system variant if there is one, otherwise the first image without variant; if neither exists, the installation is refused before any slot is touched. Each plan maps the image to a writable target slot of its class.", "quantifier": "every manifest image list, system variant and target group", "why_tests_cant": "Quantifies over all lists of images and variants.", "anchors": ["src/install.c: r_install_make_plans"]}
{"id": "C04", "title": "Installation is crash safe with respect to slot status", "statement": "At every point at which an installation can be interrupted, the persisted status of a slot whose contents are only partially written is not 'ok' (it is 'pending' or 'failed'), so a later installation never skips it. (For the central status file; with per-slot status files this does not hold, exhibited as a refutation.)", "quantifier": "every plan list, every failure of a plan, every crash point between persistent operations", "why_tests_cant": "Crash points and failure combinations are exponentially many.", "anchors": ["src/install.c: handle_slot_install_plan, launch_and_wait..., pre_install_checks, install_slots"]}
{"id": "C05", "title": "Boot target only switched after complete success", "statement": "In every execution and at every crash point, the boot loader is only told to activate a target slot after all plans succeeded; all target slots with a bootname were marked bad before the first write.", "quantifier": "every plan list, every result of every step, every crash point", "why_tests_cant": "Schedules of failures and crash points.", "anchors": ["src/install.c: do_install_bundle / launch steps, mark.c: r_mark_active"]}
{"id": "C06", "title": "Unchanged slots are skipped only when proven equal", "statement": "A slot write is skipped only if the image is not forced (install-same = false), the recorded status of the slot is 'ok' and the recorded digest equals the digest in the manifest. (An image without digest counts as equal to a slot without recorded digest; exhibited as a refutation.)", "quantifier": "every image, slot status, install-same setting", "why_tests_cant": "Decision logic over all records including missing fields.", "anchors": ["src/install.c: handle_slot_install_plan"]}
{"id": "C07", "title": "Slot status survives a save/load cycle", "statement": "Saving the status of a slot and loading it again (global status file or per-slot file) yields the same record for the persisted fields; all fields of other slots and unrelated groups in the global file are preserved. The file has the documented sections and keys (slot / slot.NAME); the boot ID of the system section is read back. A file that cannot be parsed counts as an empty one. Refuted: everything recorded about other slots survives a restart and a save (the transaction ID does not).", "quantifier": "every status record and every previous status file content", "why_tests_cant": "Universal over records incl. empty strings and counters at the limits.", "anchors": ["src/status_file.c"]}
{"id": "C08", "title": "U-Boot: activated slot becomes primary", "statement": "After a successful set-primary of slot S on U-Boot, querying the primary slot yields S, S is reported good, and the relative order of the other slots in BOOT_ORDER is unchanged.", "quantifier": "every U-Boot environment, slot set, attempts configuration", "why_tests_cant": "All environments incl. duplicates, empty words and missing variables.", "anchors": ["src/bootloaders/uboot.c: r_uboot_set_primary, r_uboot_get_primary, r_uboot_get_state"]}
{"id": "C09", "title": "U-Boot: bad slot is never primary", "statement": "After marking a slot bad on U-Boot the slot is reported bad and is never returned as primary; the boot order of all other slots and their counters are unchanged.", "quantifier": "every environment, slot set", "why_tests_cant": "All environments.", "anchors": ["src/bootloaders/uboot.c: r_uboot_set_state"]}
{"id": "C10", "title": "U-Boot: set-primary is safe at every crash point", "statement": "If the system crashes between the environment writes of set-primary or mark-bad, the previously primary slot or the new one is still bootable: the environment never contains a BOOT_ORDER whose first entry is the new slot with zero attempts left.", "quantifier": "every environment and crash point", "why_tests_cant": "Crash points.", "anchors": ["src/bootloaders/uboot.c: r_uboot_set_primary, r_uboot_set_state"]}
{"id": "C11", "title": "GRUB: activation, state and primary agree", "statement": "After set-primary of S on GRUB, S is primary and good; after mark bad, S is bad and never primary; marks do not change other slots' variables.", "quantifier": "every GRUB environment and slot set", "why_tests_cant": "All environments.", "anchors": ["src/bootloaders/grub.c"]}
{"id": "C12", "title": "Barebox: activation, state and primary agree", "statement": "After set-primary of S on barebox, S is the unique slot with the highest priority and attempts left and is reported as primary; slots disabled before stay disabled; mark bad makes S never primary.", "quantifier": "every barebox state and slot set", "why_tests_cant": "All environments.", "anchors": ["src/bootloaders/barebox.c"]}
{"id": "C13", "title": "EFI: activation, state and primary agree", "statement": "On a firmware whose boot order mentions existing entries only: after set-primary of S on EFI through BootNext, or through BootOrder when no BootNext is pending, S is reported as primary and the other boot order entries keep their relative order; after mark bad, the first boot order entry with S's name is gone, all others keep their order, and S is reported bad and is not primary provided that its name is unique and BootNext does not point to it.", "quantifier": "every EFI boot entry table, boot order and BootNext value", "why_tests_cant": "All boot variable tables, including duplicate names.", "anchors": ["src/bootloaders/efi.c"]}
{"id": "C14", "title": "Mark identifiers resolve correctly", "statement": "'mark good|bad|active booted|other|<slot>' affects exactly the slots named by the identifier: 'booted' only the booted slot, 'other' only the top-level slots with a bootname in the booted slot's class other than the booted one, a slot name exactly that slot; ambiguous good/active requests are refused without touching the boot loader.", "quantifier": "every slot table and identifier", "why_tests_cant": "All tables and identifiers.", "anchors": ["src/mark.c: mark_run, get_slots_by_identifier (via r_mark_*)"]}
{"id": "C15", "title": "Version comparison is a total preorder matching SemVer core", "statement": "Version comparison accepts every well-formed MAJOR[.MINOR[.PATCH]][-PRE][+BUILD] string without hyphens inside PRE, follows semantic-versioning precedence for numbers below 2^64, and 'less or equal' on parsed versions is reflexive, transitive and total; the minimum-version gate therefore accepts upgrades consistently.", "quantifier": "every pair / triple of version strings", "why_tests_cant": "Infinite string domain.", "anchors": ["src/utils.c: r_semver_parse, r_semver_less_equal"]}
{"id": "C16", "title": "Hex encoding round trips", "statement": "Decoding an encoded byte string yields the original; decoding accepts exactly strings of the expected length of hex digits; every rejected string leaves the caller without data.", "quantifier": "every byte string / every string", "why_tests_cant": "Infinite domain.", "anchors": ["src/utils.c: r_hex_encode, r_hex_decode"]}
{"id": "C17", "title": "Exact I/O despite short reads and writes", "statement": "The exact read/write helpers transfer every byte exactly once at the right offset for every pattern of short transfers, and report an error if and only if the underlying file ends or fails before all bytes were transferred.", "quantifier": "every buffer and every schedule of short reads/writes/errors", "why_tests_cant": "The kernel may return any short count schedule.", "anchors": ["src/utils.c: r_read_exact, r_write_exact, r_pread_exact, r_pwrite_exact, r_pwrite_lazy"]}
{"id": "C18", "title": "Stream copy writes exactly the announced size", "statement": "Writing a raw image to a device writes exactly the announced number of bytes at its start or fails. The stream copy underneath never writes more than the announced size and what it writes is the stream (that it succeeds for a shorter stream is exhibited as a refutation).", "quantifier": "every stream content, size and chunking", "why_tests_cant": "All short-read schedules.", "anchors": ["src/update_utils.c: r_copy_stream_with_progress"]}
{"id": "C19", "title": "Hash index lookup is sound and complete", "statement": "Looking up a chunk hash in a hash index returns a chunk only if its content has that hash, and finds one whenever one exists, unless an upper validity limit is set and the hash is the smallest of the index (exhibited as a refutation).", "quantifier": "every file content, index, lookup hash and invalidation bound", "why_tests_cant": "Binary search over arbitrary sorted permutations.", "anchors": ["src/hash_index.c: r_hash_index_get_chunk, build lookup"]}
{"id": "C20", "title": "Adaptive update reproduces the image", "statement": "When an adaptive (block-hash-index) update from an index that describes the image succeeds, the target device content equals the image content up to hash collisions, whatever the previous target content, seed slots and overlaps between already written data and sources.", "quantifier": "every image, old target contents, active slot contents", "why_tests_cant": "All data contents and all aliasing between source and target.", "anchors": ["src/update_handler.c: copy_block_hash_index_image_to_dev; src/hash_index.c; src/utils.c: r_pwrite_lazy"]}
{"id": "C21", "title": "Verity tree binds the payload", "statement": "Creating a verity hash tree and verifying with the resulting root hash succeeds; and if verification of any data with the same root hash and salt succeeds then the data is equal to the original unless a hash collision is exhibited. The hash levels do not overlap each other nor the data.", "quantifier": "every payload (multiple of the block size), salt", "why_tests_cant": "Unbounded payload; needs cryptographic reduction.", "anchors": ["src/verity_hash.c: r_verity_hash_create, r_verity_hash_verify"]}
{"id": "C22", "title": "MBR/GPT boot partition switch", "statement": "The boot partition update writes only inside the inactive half of the configured region, the two halves are disjoint, and the partition table is switched only after the new half was completely written; at every crash point the partition table points to a complete image. After the switch the other half is active. (For MBR: halves below 4 GiB, regions below 2^32 sectors, and a booted partition that is exactly one half; the other cases are exhibited as refutations.)", "quantifier": "every region configuration, partition table, image, crash point", "why_tests_cant": "Crash points and 64-bit geometry.", "anchors": ["src/mbr.c; src/gpt.c; src/update_handler.c: img_to_boot_mbr_switch_handler, img_to_boot_gpt_switch_handler"]}
{"id": "C23", "title": "eMMC boot partition toggle", "statement": "The eMMC handler writes only the inactive boot partition and then enables it, preserving the BOOT_ACK bit; reading back gives the partition just set; reserved and UDA settings are rejected.", "quantifier": "every EXT_CSD PARTITION_CONFIG byte and every crash point", "why_tests_cant": "All register values and crash points.", "anchors": ["src/emmc.c; src/update_handler.c: img_to_boot_emmc_handler"]}
{"id": "C24", "title": "boot-raw-fallback keeps one valid boot image", "statement": "At every crash point during the boot-raw-fallback update at least one of the two half regions contains a complete (old or new) boot image with its header, provided one did before and the image is not longer than announced.", "quantifier": "every old region content, image and crash point", "why_tests_cant": "Crash points.", "anchors": ["src/update_handler.c: img_to_boot_raw_fallback_handler, copy_raw_image, check_if_area_is_clear"]}
{"id": "C25", "title": "Event log rotation", "statement": "Rotating an event log never loses an entry other than those in the oldest file beyond the configured number of files, keeps the order of entries, and bounds the number of files by the configured maximum if that is at least 2.", "quantifier": "every sequence of log entries, sizes and limits", "why_tests_cant": "All histories.", "anchors": ["src/event_log.c: rotate logic, event_log_writer"]}
{"id": "C26", "title": "Statistics ring buffer", "statement": "Count, sum, minimum, maximum and the recent average reported for a statistics series equal those of the complete history resp. of the last 64 values; for the maximum some value has to be positive (refuted otherwise).", "quantifier": "every sequence of values", "why_tests_cant": "All histories.", "anchors": ["src/stats.c"]}
{"id": "C27", "title": "Polling back-off and gating", "statement": "For intervals below 2147484 s, the poll delay is never shorter than the configured interval, grows linearly with consecutive errors and never exceeds the configured maximum; the same update is not automatically installed twice in a row within one run of the service.", "quantifier": "every configuration and history of poll results", "why_tests_cant": "All histories; integer limits.", "anchors": ["src/polling.c; src/config_file.c: polling section"]}
{"id": "C28", "title": "Progress is monotone and bounded", "statement": "For properly nested steps, the reported installation percentage never decreases, stays within 0..100, and is 100 when the outermost step finished.", "quantifier": "every properly nested sequence of progress step operations", "why_tests_cant": "All nestings.", "anchors": ["src/context.c: r_context_begin_step..r_context_end_step"]}
{"id": "C29", "title": "Slot parents are resolved to roots", "statement": "After successfully loading a configuration, the parent of every child slot is a root slot (one without parent), reachable through the configured parent chain; cyclic parent configurations are rejected. With parent chains of at most 101 links the result does not depend on the hash order of the slots.", "quantifier": "every parent assignment", "why_tests_cant": "All graphs.", "anchors": ["src/config_file.c: fix_grandparent_links"]}
{"id": "C30", "title": "Bundle format restrictions", "statement": "The allowed bundle formats after parsing 'bundle-formats' are exactly those listed (absolute form) or the previous set with additions and removals applied in order (modifier form); an empty result and mixtures are rejected.", "quantifier": "every option string", "why_tests_cant": "All strings.", "anchors": ["src/config_file.c: parse_bundle_formats"]}
{"id": "C31", "title": "Bootnames are unique", "statement": "A configuration in which two slots share a bootname is refused, every other is accepted by this check.", "quantifier": "every slot table", "why_tests_cant": "All tables.", "anchors": ["src/config_file.c: check_unique_slotclasses, check for duplicate bootnames"]}
{"id": "C32", "title": "Manifest save/parse round trip", "statement": "Writing a manifest and parsing the result yields the same manifest, apart from min-rauc-version, which is not written (exhibited as a refutation).", "quantifier": "every valid manifest", "why_tests_cant": "Infinite domain.", "anchors": ["src/manifest.c: save_manifest_mem, load_manifest_mem, parse_manifest, prepare_manifest"]}
{"id": "C33", "title": "Accepted bundled manifests are safe", "statement": "Every manifest that passes the bundled-manifest check for its format has a checksum of 64 hex digits and non-negative size for every image with a file, no path separators in file names, and the verity/crypt fields required by its format.", "quantifier": "every manifest", "why_tests_cant": "Infinite domain.", "anchors": ["src/manifest.c: check_manifest_internal, check_manifest_external, check_manifest_bundled"]}
{"id": "C34", "title": "Image section names", "statement": "Image group names 'image.<class>[/<artifact>][.<variant>]' parse to the class, artifact and variant they were generated from, and no two distinct triples generate the same name.", "quantifier": "every class, artifact, variant string without separators", "why_tests_cant": "Infinite domain.", "anchors": ["src/manifest.c: parse_image, prepare_manifest"]}
{"id": "C35", "title": "Bundle trailer round trip and malformed trailers", "statement": "Appending a signature to a payload and opening the file recovers exactly the payload length and the signature; opening rejects every file whose trailer describes an empty, oversized or out-of-file signature. Re-signing or truncating preserves the payload bytes.", "quantifier": "every payload, signature and every arbitrary file", "why_tests_cant": "All byte strings.", "anchors": ["src/bundle.c: append_signature_to_bundle, open_local_bundle, open_remote_bundle, truncate_bundle, resign"]}
{"id": "C36", "title": "No bundle content is used unverified", "statement": "Unless verification was explicitly disabled, a bundle's payload is only mounted after its signature was verified and, for plain bundles, after exclusive access was ensured; verity and crypt bundles are accessed only through dm-verity with the signed root hash; formats outside the configured mask are refused.", "quantifier": "every bundle (local, remote, detached/embedded signature), every configuration and every operation order", "why_tests_cant": "All combinations.", "anchors": ["src/bundle.c: check_bundle, check_bundle_payload, mount_bundle"]}
{"id": "C37", "title": "Exclusive access decision", "statement": "A local bundle file is only considered exclusively accessible if its owner and the owners of all involved mounts are root or the running user, group and others cannot write, and no other open file descriptor exists.", "quantifier": "every combination of ownership, mode, file system and lease result", "why_tests_cant": "All combinations.", "anchors": ["src/bundle.c: check_bundle_access, enforce_bundle_exclusive"]}
{"id": "C38", "title": "Artifact references round trip", "statement": "After committing the artifact activation state of a repository and re-reading it from the file system, exactly the same artifacts are referenced under the same names and parents.", "quantifier": "every repository state", "why_tests_cant": "All repository states.", "anchors": ["src/artifacts.c: r_artifact_repo_commit, read_links"]}
{"id": "C39", "title": "Artifact pruning never removes referenced artifacts", "statement": "Pruning a repository removes only artifacts that are not referenced by any parent and not open, plus unknown/temporary entries; every visible (not dot-) symlink to an artifact which resolved before resolves after.", "quantifier": "every repository directory content", "why_tests_cant": "All directory contents.", "anchors": ["src/artifacts.c: r_artifact_repo_prepare, r_artifact_repo_prune"]}
{"id": "C40", "title": "Artifact installation is crash safe", "statement": "At every crash point of installing, activating and pruning an artifact, every artifact link points to a complete artifact (the old or the new one). (Links made by hand under other names are outside; exhibited as refutations.)", "quantifier": "every repository state and every crash point", "why_tests_cant": "Crash points.", "anchors": ["src/artifacts.c: r_artifact_install, r_artifact_activate, r_artifact_repo_commit; src/utils.c: r_update_symlink"]}
{"id": "C41", "title": "Streaming reads are complete or failed", "statement": "A block device read served by the streaming NBD server is answered with success only with exactly the requested number of bytes from a 206 response for the requested range; overlong and failed transfers are retried a bounded number of times and then reported as error, and a short body is never sent to the client.", "quantifier": "every sequence of HTTP transfer results", "why_tests_cant": "All transfer schedules.", "anchors": ["src/nbd.c: start_read, write_cb, finish_read"]}
{"id": "C42", "title": "Update handler selection", "statement": "The update handler chosen for an image and slot depends only on the first matching image type and the slot type, never combines an image type with a slot type it was not meant for, and images larger than the slot are refused before writing for raw slots.", "quantifier": "every file name and slot type", "why_tests_cant": "All file names.", "anchors": ["src/update_handler.c: get_update_handler, updatepairs, check_image_size"]}
{"id": "C43", "title": "Version and compatibility gates", "statement": "An installation is refused, before any target slot is touched, if the bundle's compatible string differs from the system's (unless overridden), if its version is below the configured minimum, or if the bundle requires a newer rauc. The whole course of an attempt is determined: bundle access, pre-install handler, install-check hook, the slot updates exactly if the gates are open, the post-install handler exactly after success, and the result is success only if all of these succeeded. Refuted: nothing runs for an incompatible bundle (the pre-install handler of system.conf runs before the gates).", "quantifier": "every combination of configuration and manifest", "why_tests_cant": "All strings.", "anchors": ["src/install.c: check_compatible / check_version_limits / verify"]}
{"id": "C44", "title": "Hook environment keys", "statement": "Environment variable names generated from arbitrary slot/manifest keys contain only A-Z, 0-9 and underscore and start with the required prefix.", "quantifier": "every string", "why_tests_cant": "All strings.", "anchors": ["src/utils.c: r_prepare_env_key"]}
{"id": "C45", "title": "Slot selection policy", "statement": "Among the inactive slots of a class the installation chooses a slot whose last installation failed or that was never installed if there is one, otherwise one with the oldest installation time stamp; some slot is chosen whenever an inactive one exists.", "quantifier": "every slot table, every set of status records", "why_tests_cant": "All tables and time stamps.", "anchors": ["src/install.c: select_inactive_slot_class_member"]}
{"id": "C46", "title": "A bootable system at every crash point", "statement": "Over any history of installations, failures, power cuts and restarts, the boot loader always has something to boot and only boots slot groups whose members are all completely written, provided every installation is started from a booted slot that is still a boot candidate and every bundle writing a bootable group contains its root slot and all members that are not complete.", "quantifier": "every slot table, history, installation outcome and crash point; U-Boot, GRUB and barebox", "why_tests_cant": "All histories and crash points.", "anchors": ["src/install.c: launch_and_wait_default_handler, handle_slot_install_plan, get_boot_mark_slot", "src/bootloaders/uboot.c, grub.c, barebox.c"]}
{"id": "C47", "title": "Strict configuration", "statement": "A system configuration is only accepted if every section is one of the documented ones and every key in it is allowed there (for the configured boot loader and slot type); the slots, their devices, types, boot names and flags of the running system are exactly those written in the file, and the system section is consistent (compatible and a known boot loader set, boot-attempts only with U-Boot or barebox, no per-slot status together with a data directory).", "quantifier": "every configuration file, every hash table order", "why_tests_cant": "All files: combinations of sections, keys and values.", "anchors": ["src/config_file.c: load_config, parse_config, parse_system_section, parse_slots", "src/utils.c: check_remaining_keys, check_remaining_groups"]}
{"id": "C48", "title": "Sizes with suffix", "statement": "A size option written as a decimal number with an optional suffix K, M, G or T (either case) is read as that number times the power of 1024, for region-start, region-size and size-limit; slots of the region types are refused without both region options.", "quantifier": "every number whose product fits into 64 bits, every suffix, every configuration file", "why_tests_cant": "All numbers.", "anchors": ["src/utils.c: key_file_consume_binary_suffixed_string", "src/config_file.c: parse_slots"]}
{"id": "C49", "title": "Streaming configuration", "statement": "Configuring a streaming connection succeeds only if, within six attempts, the server answers the initial range request with 206 and exactly the four requested bytes and has announced a total size different from 0 in a Content-Range header for bytes 0-3; otherwise the error reported to the caller corresponds to the HTTP status of the last attempt.", "quantifier": "every sequence of HTTP responses (headers, chunks, codes, errors)", "why_tests_cant": "All responses.", "anchors": ["src/nbd.c: start_configure, header_cb, finish_configure, nbd_configure"]}
{"id": "C50", "title": "Only one operation at a time", "statement": "The service runs at most one installation at a time; from the acceptance of an installation to its Completed signal every other method call that installs, inspects, marks or queries slots is refused and polling does not look for updates; each accepted installation emits exactly one Completed signal carrying the result it ended with, after all its messages; when none is in progress, requests are served; the Operation property says installing only while an installation is in progress.", "quantifier": "every schedule of client calls, polling, installation thread steps and main loop callbacks", "why_tests_cant": "All interleavings of the main loop, the installation thread and the clients.", "anchors": ["src/service.c: r_on_handle_install_bundle, r_on_handle_mark, service_install_cleanup, auto_install", "src/install.c: install_run, install_thread, install_done, install_args_free", "src/polling.c: polling_trigger_install, polling_install_cleanup"]}
{"id": "C51", "title": "Booted slot detection follows the documented sources", "statement": "The slot RAUC takes for booted is the one named by the first rauc.slot= parameter of the kernel command line (unless it says rauc.external or root=/dev/nfs), else what the bootloader reports (barebox bootchooser.active=, EFI BootCurrent, custom backend), else the device root= or systemd.verity_root_data= refers to, with symbolic links resolved; with none of these no slot is assumed and installation is refused. The slot so named, and its children, are never written by an installation.", "quantifier": "every kernel command line, slot configuration, bootloader kind and state, link resolution", "why_tests_cant": "command lines come from the bootloader and the user; the tests check one literal line per kind of parameter and no interplay of parameters", "anchors": ["src/context.c:get_bootname", "src/context.c:get_cmdline_bootname_explicit", "src/context.c:get_cmdline_bootname_root", "src/bootchooser.c:r_boot_get_current_bootname", "src/utils.c:r_regex_match_simple", "src/install.c:determine_slot_states"]}
{"id": "C52", "title": "Encrypted payloads: dm-crypt format, lossless, whole-file replacement", "statement": "Creating a crypt bundle replaces the payload file as a whole by one in which every 4096-byte sector is encrypted on its own with its 512-byte sector number as IV (the aes-cbc-plain64 format dm-crypt reads), or fails and leaves the file alone; the temporary file disappears in every case. Extracting a crypt bundle decrypts exactly the payload, whatever hash tree and signature follow it. Payloads that are not a multiple of 4096 bytes are refused.", "quantifier": "every payload, key, trailing data, any cipher whose decryption inverts its encryption, every failure of opening, renaming, reading and writing", "why_tests_cant": "the tests encrypt and decrypt one small image with one key and never see a failing write or look at what stays on disk", "anchors": ["src/crypt.c:encrypt_or_decrypt", "src/crypt.c:iv_plain64", "src/bundle.c:encrypt_bundle_payload", "src/bundle.c:decrypt_bundle_payload"]}
{"id": "C53", "title": "Downloads are complete, limited and never overwrite", "statement": "A successful download leaves exactly the body the server sent in a file that did not exist before; a body over the size limit, whether announced or only sent, makes the download fail, and no more than the limit ever reaches the disk; a body within the limit that fits on the file system is downloaded; an existing file is left alone.", "quantifier": "every body, size limit, division of the body into chunks, sequence of progress reports, stdio buffer size and amount of free space", "why_tests_cant": "the tests download one small file from a local server and one over the limit; chunking, announced sizes and full file systems are not varied", "anchors": ["src/network.c:download_file", "src/network.c:transfer", "src/network.c:write_cb", "src/network.c:xfer_cb"]}
{"id": "C54", "title": "The right system configuration is used, and a broken one is never ignored", "statement": "With --conf exactly that file is used; otherwise the first existing of /etc, /run, /usr/lib rauc/system.conf. Built-in defaults are used only by commands that need no configuration, or, for commands where it is optional, when the file cannot be read or is empty: an existing but invalid configuration makes the command fail. -C SECTION:KEY=VALUE overrides count as if written in the file (the last one wins), and --mount, --keyring and the keyring directory from the command line win over the file. The target is only set up when a configuration is required or explicitly named.", "quantifier": "every command line, every combination of existing, unreadable, empty, malformed and valid files, every list of overrides", "why_tests_cant": "tests run with one explicit configuration file; search order, fallback and override combinations are not enumerated", "anchors": ["src/context.c:r_context_configure", "src/context.c:load_config_verbose", "src/config_file.c:load_config", "src/config_file.c:default_config", "src/main.c:collect_config_values"]}
{"id": "C55", "title": "System variant: one well-defined value, used for image selection", "statement": "The system variant is the configured name, the content of the variant file, or the first device tree compatible string, replaced by the last RAUC_SYSTEM_VARIANT the system-info handler prints, without surrounding white space; it is unset if its source cannot be read. A system-info handler that is missing or fails makes the configuration fail. An image with a variant is installed only on a system with exactly this variant; the image without variant only if none matches (for slots). Refuted: the same for images of artifacts - the images of all variants are installed.", "quantifier": "every variant setting, every content of the variant file, device tree and handler output, every list of images", "why_tests_cant": "tests use one variant file and one handler script with well-formed output", "anchors": ["src/context.c:r_context_configure_target", "src/context.c:get_variant_from_file", "src/context.c:get_system_info_from_handler", "src/context.c:launch_and_wait_variables_handler", "src/install.c:get_install_images"]}
{"id": "C56", "title": "Signature policy: who may sign a bundle", "statement": "With verification enabled a bundle is accepted only if its signature (after decryption, for encrypted bundles) is CMS signed data by exactly one signer over exactly the payload (plain) or the manifest used (verity, crypt), whose certificate has a chain to the configured keyring that meets every configured restriction: self-signed end unless partial chains are allowed, all certificates valid now (or at the signing time if so configured, or unchecked with --no-check-time), none revoked if CRLs are checked, the configured purpose (codesign: signer with extended key usage codeSigning, no CA of the chain excluding it; without check-purpose S/MIME signing), and the signer's common name in allowed-signer-cns if set. Bundles signed like that are accepted; without a readable keyring or with an unknown purpose none is. Signing with a keyring only yields signatures this keyring accepts.", "quantifier": "every CMS structure, certificate chain, keyring configuration, time and bundle file", "why_tests_cant": "tests use a handful of certificates and bundles; the claim is about every signature an attacker may craft", "anchors": ["src/signature.c:cms_verify_bytes", "src/signature.c:cms_get_cert_chain", "src/signature.c:cms_check_signer_cns", "src/signature.c:cms_get_signingtime", "src/signature.c:setup_x509_store", "src/signature.c:check_purpose_code_sign", "src/signature.c:cms_sign", "src/bundle.c:check_bundle"]}
{"id": "C57", "title": "Derived bundles are complete or absent", "statement": "resign, replace-signature and encrypt never touch an existing output file; if they fail no output is left and no other file has changed; if they succeed the output is the payload of the input followed by the new signature and its length, and opening it gives back the same payload and the new signature. After replace-signature the output has passed the bundle check with the signing keyring if given, otherwise with the configured one; resigning a plain bundle with a keyring yields a signature by a signer trusted by it. The keyring settings are as before, provided one was configured. extract-signature writes only its output file, never over an existing one, and on success exactly the signature. If another program creates the output meanwhile it is never overwritten. Refuted: it is not removed either; a failed extract-signature leaves no partial output; the settings are intact without a configured keyring.", "quantifier": "every input file, signature, failure point (including partial writes) and keyring setting", "why_tests_cant": "unit tests cover the success case and two or three error paths", "anchors": ["src/bundle.c:resign_bundle", "src/bundle.c:replace_signature", "src/bundle.c:encrypt_bundle", "src/bundle.c:truncate_bundle", "src/bundle.c:append_signature_to_bundle", "src/bundle.c:extract_signature", "src/utils.c:r_tempfile_cleanup", "src/context.c:r_context_clean"]}
{"id": "C58", "title": "A slot update does what the slot type requires, only to that slot, and cleans up", "statement": "Updating a slot from a plain image changes exactly what the slot type prescribes, in that order (format, extract, write, resize, activate); a successful update has stored the content; nothing but the device of the slot (for eMMC boot slots: its boot partition that is not in use) is ever modified, also when another slot is used as seed. A requested pre-install hook has succeeded before anything is modified, each hook runs at most once, the post-install hook runs only when the content is complete and only the activation follows it; a boot area is activated last and only when everything before succeeded. Any failure that matters ends the update with an error and is followed by cleanup only. Everything mounted is unmounted again whatever fails, unless unmounting itself fails, which is reported. Directories made for mounting are removed; UBI volumes opened are closed on success; the write protection of an eMMC boot partition is lifted before every write to it and restored whatever happens. With an install hook exactly that hook runs and its result is the result.", "quantifier": "every slot type handler, image, configuration, hook setting and combination of failures of programs, mounts and device operations", "why_tests_cant": "each handler has a dozen failure points and the hook, seed and mount options multiply; tests need real devices for most of them", "anchors": ["src/update_handler.c:img_to_fs_handler", "src/update_handler.c:archive_to_ext4_handler", "src/update_handler.c:img_to_boot_emmc_handler", "src/update_handler.c:img_to_boot_mbr_switch_handler", "src/update_handler.c:img_to_boot_raw_fallback_handler", "src/update_handler.c:casync_extract_image", "src/update_handler.c:mount_and_run_slot_hook", "src/mount.c:r_mount_slot", "src/mount.c:r_umount_slot"]}
{"id": "C59", "title": "Slot hooks and tools are told the truth", "statement": "The environment of a slot hook describes the slot being updated (name, class, type, device, state, parent, boot name of the parent if there is one), the image, the system and the bundle; RAUC_SLOT_MOUNT_POINT is where the slot's device is mounted while the hook runs, or the external mount point; the partition named to hooks of MBR/GPT boot slots is the one that is cleared, written and activated. The label given to mkfs.vfat is valid; archives are decompressed according to their suffix.", "quantifier": "every handler except boot-emmc (refuted there), slot, configuration, image, failure pattern; every slot name; every archive name", "why_tests_cant": "tests look at one or two hook runs with fixed names", "anchors": ["src/update_handler.c:run_slot_hook_extra_env", "src/update_handler.c:vfat_label_generator", "src/update_handler.c:suffix_to_tar_flag", "src/update_handler.c:img_to_boot_mbr_switch_handler"]}
{"id": "C60", "title": "Check of the complete bundle before mounting", "statement": "With perform-pre-check enabled, the pass over the dm-verity (or dm-crypt) device ends, an intact bundle always passes, and a bundle with a corrupt block that starts a 64 KiB chunk is always refused; if the kernel fails every read that touches a corrupt block, exactly the intact bundles pass. With the page cache of Linux, which answers such a read with the data before the corrupt block, a bundle passes exactly when the first block of every 64 KiB chunk is intact: a short read is not retried, so any other corrupt block is missed and the documented \"complete bundle is checked for data corruption\" does not hold.", "quantifier": "all devices (number of blocks and set of corrupt ones) and all kernels that answer reads the way POSIX allows", "why_tests_cant": "the set of corrupt blocks and the split of the device into chunks are unbounded; a test corrupts one block of one bundle", "anchors": ["src/bundle.c: read_complete_dm_device, prepare_verity, prepare_crypt", "docs/reference.rst: perform-pre-check"]}
{"id": "C61", "title": "Bundle mounting: layers, clean-up, order of checks", "statement": "Mounting a local bundle sets up exactly the documented stack: a read-only, self-clearing loop device limited to the signed part of the file, a dm-verity device on it for verity bundles and a dm-crypt device on top for crypt bundles (table lines, sector counts, read-only), mounted read-only, nodev and nosuid, with no descriptor left open and the device-mapper layers marked for removal on last use. Nothing is mounted before the loop device is configured, every layer has been read and reported sound by the kernel, and (if configured) the whole device has been read; nothing is mounted from an unverified bundle. If any step fails, everything that was set up is given back (loop device, descriptors, device-mapper devices, mount point) as long as the kernel does not refuse the releases; the same holds after unmounting; a refused unmount changes nothing. At most ten loop devices are tried. A failure carries an error message unless the manifest claims that the hash tree fills the whole bundle.", "quantifier": "all bundles and formats, all kernels (any answer to any system call, depending on anything that happened before), all points of failure", "why_tests_cant": "failures of each system call in each combination cannot be provoked by tests; what is left behind afterwards is invisible to unit tests", "anchors": ["src/bundle.c: mount_bundle, umount_bundle, prepare_verity, prepare_crypt", "src/mount.c: r_setup_loop, r_mount_bundle, r_umount_bundle", "src/dm.c: r_dm_setup, r_dm_remove, check_status"]}
{"id": "C62", "title": "Creating a bundle: inputs untouched, faithful contents, nothing partial left", "statement": "Creating a bundle never changes anything in the content directory besides its working directory: same tree, same file contents, in every outcome. An existing output file is refused and left alone. If creation fails, no output file is left (unless its removal failed) and the temporary fakeroot directory is removed. If creation succeeds without an error, the output is a complete bundle of the format in the manifest (squashfs, for crypt encrypted, for verity and crypt with hash tree, signed), the working directory is gone, the manifest in it is the input manifest with checksum, size and conversion results of every image and passes the checks of an installed bundle, every image file that is not converted is in it with exactly the contents the manifest describes, every other entry of the content directory is in it as seen through symbolic links to directories and nothing else is, every visited entry was a regular file, a directory (not hidden at the top) or a link without slash, ownership is kept iff an image is extracted, and the requested conversion outputs exist, a converted image that is not kept is gone, a requested block hash index is there and is the index of the image, and tools ran under fakeroot exactly when that was needed. It succeeds only if manifest, images and hook exist and every adaptive or conversion method is known; and it does succeed for every allowed directory with a valid manifest of plain images when no system call or tool fails. The process is aborted only for a manifest that already has results of signing or encryption.", "quantifier": "all content directories (any tree, hard and symbolic links), manifests, directories above, outcomes of every system call and tool, and leftovers of earlier runs", "why_tests_cant": "unit tests create a few bundles from well-formed directories with all tools working; failures at each step and odd trees are not covered", "anchors": ["src/bundle.c: create_bundle, prepare_workdir, link_contentdir_to_workdir, check_workdir_content, convert_images, generate_adaptive_data, encrypt_bundle_payload, sign_bundle", "src/manifest.c: check_manifest_input, sync_manifest_with_contentdir", "src/utils.c: r_tempfile_cleanup, r_fakeroot_init"]}
{"id": "C63", "title": "Converting a bundle to a casync bundle keeps its meaning and its surroundings", "statement": "rauc convert never touches an existing output and ends either with success, no error and a complete output, or with failure, an error and (unless unlinking is refused) no output; it never aborts. On success the output is sealed in the format of the input; its manifest, inside and in the signature, has the header, metadata and images of the input manifest, except that each image that names a file and whose class was not given with --ignore-image names <file>.caidx (archives) or <file>.caibx (all others); all other files and directories are those of the input, the index was made from exactly the contents of the replaced file, and that file is gone (or its removal was refused, which is only a warning). Every program run is 'casync make', 'desync make' or, for archives, one 'sh -c' command that, whatever characters the names contain, is read by the shell as 'tar xf <file> -C <new directory> --numeric-owner && casync make --with=unix ...'; the store is the output name with .raucb replaced by .castr. What was in the directory for temporary files stays as it was. Refuted by the code: that nothing new is left there (each converted archive leaves its arch-XXXXXX directory), that only files of the unpacked bundle are removed ('../' in a file name is checked only after the removal), that files listed as 'converted' survive, that every valid bundle can be converted (two images naming the same file cannot).", "quantifier": "all input trees and manifests, all options (desync, extra arguments, ignored classes), all answers and failures of the external programs and of the file system", "why_tests_cant": "the answers of casync, tar, the file system and the names in the manifest are arbitrary; a test shows one bundle, one order of failures and harmless names", "anchors": ["src/bundle.c: create_casync_bundle, convert_to_casync_bundle, casync_make_arch, casync_make_blob, image_is_archive, extract_bundle"]}
{"id": "C64", "title": "Shell output is safe to evaluate and says what is known", "statement": "Evaluating the output of \"rauc info --output-format=shell\" or \"rauc status --output-format=shell\" in sh runs no command, makes only assignments to RAUC_ variables (names made of capitals, digits and underscores) and gives every variable exactly the value of the corresponding field of the manifest, slot, slot status or artifact repository, whatever characters the value contains; no field can change the variable of another one (two meta keys with the same variable name excepted); every slot of the service arrives at the client with its values unchanged, exactly once and under its own number.", "quantifier": "every manifest with any number of images and meta keys, every set of slots, slot status, repositories, artifacts and instances with arbitrary strings, every order of the hash tables", "why_tests_cant": "Quoting and name clashes concern all strings and all numbers of slots, images and instances.", "anchors": ["src/main.c: info_formatter_shell, r_status_formatter_shell, retrieve_slot_states_via_dbus, r_variant_get_slot_state, print_status", "src/utils.c: r_ptr_array_env_to_shell", "src/service.c: convert_slot_status_to_dict", "src/shell.c"]}
{"id": "C65", "title": "Handlers and the install-check hook are told the truth, and their answer counts", "statement": "The environment of pre-install, post-install and custom handlers has, whatever rauc's own environment and the system-info handler say, the documented variables for the system, the bundle and the transaction, every configured slot under its number with name, class, type, device, bootname and parent, the list of all numbers, and the list of target slots, which has at most one slot of a class and never the booted slot or one of its group; target slots have the name, digest and class of their image; the manifest's meta data is there; all other variables are passed on unchanged. A custom handler is started with the words of the manifest's arguments followed by those of the command line, exactly once, and only exit code 0 is a success; every line it prints is shown, in order. The install-check hook is started with the documented variables; it accepts only with exit code 0, and an exit code of 10 or more with a message on stderr is reported as a rejection with the last line as the reason.", "quantifier": "every system configuration, boot slot, slot status, inherited environment, system-info output, manifest (any images, variants and meta data), every output and exit status of the programs", "why_tests_cant": "The environment is built from tables of any size and the inherited environment; unit tests look at fixed samples.", "anchors": ["src/install.c: add_system_environment, prepare_environment, parse_handler_output, launch_and_wait_handler, launch_and_wait_custom_handler, run_bundle_hook", "src/utils.c: r_environ_setenv_ptr_array, r_subprocess_launcher_setenv_ptr_array", "src/shell.c: r_shell_from_manifest_meta"]}
{"id": "C66", "title": "Custom boot loader backend: what was set is what is reported", "statement": "With bootloader=custom every request of rauc runs the backend program exactly once with the documented arguments (get-primary; set-primary <bootname>; get-state <bootname>; set-state <bootname> good|bad; get-current); a set request succeeds iff the program exits with 0; the reported primary slot is always a configured slot whose bootname the program printed (white space around it ignored) with exit code 0, the reported state is good or bad iff the program printed this, everything else is an error. If the program follows the documentation then after any history of requests, any of which may fail, the boot loader has the primary slot and the states that were last set successfully, nothing else changed, and rauc reports them. The noop boot loader accepts every request and changes nothing.", "quantifier": "every program (any state, output, exit status at each call), every list of slots, every history of requests", "why_tests_cant": "The program is arbitrary and its answers depend on the whole history.", "anchors": ["src/bootloaders/custom.c", "src/bootchooser.c: r_boot_get_primary, r_boot_set_primary, r_boot_get_state, r_boot_set_state", "docs/integration.rst: Custom bootloader backend interface"]}
{"id": "C67", "title": "EFI backend: the text interface to efibootmgr loses nothing", "statement": "Whatever boot entries (with labels on one line without tab), BootOrder, BootNext and BootCurrent there are, rauc reads from the output of efibootmgr (old format or new format with device paths, any other lines in between) exactly these. With an efibootmgr that does what its manual says, but may fail at any call, setting the primary slot makes the slot the first entry the firmware tries (BootNext) or the first of BootOrder with the others in order, marking a slot good or bad adds it in front of or removes it from BootOrder, in each case creating the boot entry first if it is missing; or an error is reported and the sequence of names the firmware tries is what it was. If the tool does not fail and the entry exists, nothing fails. The tool is run with no other arguments than the documented ones; a new entry names the disk, partition, label, loader and command line of the slot itself.", "quantifier": "every set of boot variables with showable labels, every output in the documented format, every stateful tool that follows its manual with failures at any calls, every slot", "why_tests_cant": "The labels, numbers and extra lines are written by firmware and operating systems; the number of states and failure points is unbounded.", "anchors": ["src/bootloaders/efi.c: efi_bootorder_get, efi_bootentry_create, efi_bootorder_prepare, efi_set_temp_primary, efi_modify_persistent_bootorder, r_efi_set_primary, r_efi_set_state, r_efi_get_primary, r_efi_get_state, r_efi_get_current_bootname"]}
{"id": "C68", "title": "Composefs artifacts always keep the objects they need", "statement": "In a composefs artifact repository, whenever the device loses power and whatever system calls fail during installations, after the next boot every artifact link points to an artifact whose image is the right one and all of whose objects are in the store with the right content. A successful installation leaves exactly the links of the bundle's artifacts (all on the disk), only complete artifacts that are linked or in use, only objects some remaining artifact needs and no temporary directories; it never aborts. Artifacts in use during an installation stay complete all the time. Object names taken from an image are exactly the payloads of the regular files in it; an image with a payload that is not two hex digits, a slash and 62 hex digits is rejected, so no path outside of the store is touched. Not guaranteed: if an installation fails after it changed links but before they are synced, the next one in the same boot may remove the artifact the link on the disk still points to; an artifact that has lost an object is not repaired by installing it again.", "quantifier": "all repository contents, bundles, images (trees of any depth), artifacts in use, failing system calls, numbers of installations and boots, crash points and states of unsynced data at each of them", "why_tests_cant": "Crash points, reordering of unsynced writes and histories of installations cannot be enumerated by tests.", "anchors": ["src/artifacts_composefs.c:composefs_object_name_valid", "src/artifacts_composefs.c:composefs_collect_objects", "src/artifacts_composefs.c:r_composefs_artifact_repo_prepare", "src/artifacts_composefs.c:r_composefs_artifact_repo_prune", "src/artifacts_composefs.c:r_composefs_artifact_install", "src/artifacts.c:r_artifact_repo_commit", "src/artifacts.c:r_artifact_install", "src/install.c:handle_artifact_install_plan"]}
{"id": "C69", "title": "rauc install over D-Bus: options, bundle name and exit code; InspectBundle", "statement": "The service refuses an installation request with any option it does not know or whose value has the wrong type; otherwise the installation runs with exactly the options the client asked for, all others at their defaults. InspectBundle likewise takes only the access options. The bundle name handed over is an existing absolute local path, or the unchanged argument if it has a URL scheme other than file. A client whose request was refused exits with 2; an accepted client exits with what the last event it processed says: result of a finished installation, 2 when the service vanished, 3 on interrupt. Exit code 0 means some installation succeeded; if the client saw only its own installation finish, the code is the result of that one. A client whose installation has ended always wakes up. Not guaranteed: Completed carries no owner, so with two clients one can exit 0 while its installation is still running, or although it failed; an existing relative file name containing a colon is taken for a URL. The InspectBundle reply has exactly the values of the manifest (images in order, all meta groups), no key twice and never the key of an encrypted payload.", "quantifier": "all option dictionaries (any keys, types, duplicates), paths and file systems, numbers of clients, interleavings of calls, signals, interrupts, service loss and main-loop batches; all manifests", "why_tests_cant": "Interleavings of several clients with the service's signals and all option dictionaries cannot be enumerated by tests.", "anchors": ["src/main.c:install_start", "src/main.c:resolve_bundle_path", "src/main.c:on_installer_completed", "src/main.c:on_installer_changed", "src/service.c:r_on_handle_install_bundle", "src/service.c:convert_dict_to_bundle_access_args", "src/service.c:service_install_cleanup", "src/service.c:r_on_handle_inspect_bundle", "src/manifest.c:r_manifest_to_dict"]}
{"id": "C70", "title": "HTTP requests of streaming; polling is fresh", "statement": "Every HTTP request made for a streamed bundle carries exactly the TLS settings asked for (arguments first, then system configuration; the peer is not verified only if no-verify was requested; a PKCS#11 key only for a pkcs11: URI) and the headers asked for. The system information headers are sent exactly in the configuration requests (to the given URL), never in the data requests (to the URL the server redirected to, for exactly the bytes asked for). The information headers are exactly the enabled ones whose value is known and one per RAUC_HTTP_ variable of the system-info handler; no value can add a second header line. Size, dates and ETag reported are those of the last such header of the answers of all attempts. If the server answers honestly (ETag of what it offers, 304 only for the ETag it offers, 204 only for nothing) and ETags tell bundles apart, then after every successful poll of any history the stored manifest is that of the bundle the server offers at that time (none if it offers none); a failed poll changes nothing. Not guaranteed: RAUC-Uptime is sent as (null) when it is not known; the ETag of a redirection counts as ETag of a bundle without one, so that a later 304 keeps an old manifest.", "quantifier": "all arguments, configurations, contexts, header lines, numbers of attempts and redirections, data requests; all histories of polls", "why_tests_cant": "Freshness is a property of all histories of answers; header handling ranges over all strings.", "anchors": ["src/bundle.c:assemble_info_headers", "src/bundle.c:system_info_to_header", "src/bundle.c:get_uptime", "src/bundle.c:check_bundle", "src/nbd.c:prepare_curl", "src/nbd.c:start_configure", "src/nbd.c:start_read", "src/nbd.c:header_cb", "src/nbd.c:finish_configure", "src/nbd.c:nbd_configure", "src/polling.c:polling_fetch"]}
{"id": "C71", "title": "Command line: operations and exit codes", "statement": "A call of rauc whose command exists, whose options belong to it and whose configuration loads either asks for one sequence of operations (given by a table: command, arguments, options) or is refused. Asked for: the operations are done in order up to the first which fails, and the exit code is 0 exactly if none failed (1 else; for install the code of the installation). Refused: exit code 1 and nothing done (status has queried the status before). Unknown commands and options of other commands are refused with exit code 1. The signature check is left out only with --no-verify and only by resign, replace-signature, convert and info; its time check only with --no-check-time and only by resign and info; the bundle's environment is trusted without exclusive access check only with --trust-environment. Every operation on a bundle is preceded by a successful check of that call's bundle. Bundles are created, resigned and converted only with certificate and key given. A read-only slot is never written by write-slot. For normalised absolute paths a bundle is never created inside of its own content directory. Not guaranteed: ./content is not recognised as content; an output next to the content whose name starts with that of the content is refused; write-slot leaves the recorded slot status alone, so that a later installation skips a slot whose content is different.", "quantifier": "all feature sets, options, arguments, environments and outcomes of the operations", "why_tests_cant": "Ranges over all command lines and all combinations of failing operations.", "anchors": ["src/main.c:bundle_start", "src/main.c:write_slot_start", "src/main.c:resign_start", "src/main.c:replace_signature_start", "src/main.c:extract_signature_start", "src/main.c:extract_start", "src/main.c:convert_start", "src/main.c:encrypt_start", "src/main.c:info_start", "src/main.c:status_start", "src/main.c:service_start", "src/main.c:mount_start", "src/main.c:install_start", "src/main.c:cmdline_handler", "src/main.c:main"]}
{"id": "C72", "title": "Boot events and links of the active slots", "statement": "With a central status file and boot IDs from the kernel: over any history of boots, starts and restarts of the service, installations and markings in between, failing saves and power losses, the service logs a boot event at its first start in each boot, repeats it only until the boot ID was saved, and logs a restart from then on; so exactly one boot event per boot if saving works, and never none. The event names the slot the boot information belongs to (or that the system was booted externally), the boot ID, and the bundle hash which the installation recorded for that slot (unknown if none). If the boot slot is not known, or the artifact repositories cannot be read, nothing is logged. After the start each link slots/active/CLASS which could be set leads to the device of an active slot of that class - of the one, if it is only one -, each link artifacts/REPO to the repository (for repositories with a parent class: to the part of the booted slot); other links are unchanged. The service runs exactly if the boot slot is known and the repositories can be read, whatever happens to the status file (unless the system goes down). Not guaranteed: with two active slots of one class (which the configuration may have) the target depends on the order of a hash table.", "quantifier": "all slot configurations, histories of boots with distinct boot IDs, outcomes of saving, power losses, initial status files", "why_tests_cant": "A property of all histories with crashes between logging and saving.", "anchors": ["src/main.c:service_start", "src/main.c:r_event_log_booted", "src/main.c:r_event_log_booted_external", "src/main.c:create_run_links", "src/context.c:get_boot_id", "src/context.c:r_context_configure_target", "src/status_file.c:r_system_status_load", "src/status_file.c:r_system_status_save", "src/slot.c:r_slot_get_booted", "src/utils.c:r_update_symlink"]}
{"id": "C73", "title": "Images handed to external programs arrive completely", "statement": "When an image is handed to the standard input of tar, nandwrite or a UBI tool, then whatever the sizes of the single transfers, the program got a prefix of the image at every time, and exactly the image when this succeeds; it ends after at most one transfer per byte and one more; the percentages reported are at most 100, never decrease and end with 100. For an image which is not empty, or without progress reporting, it never divides by zero. Not guaranteed: for an empty image with progress reporting (any installation) it always divides by zero after the first transfer and the process is killed (the raw writer has a special case for empty images, this one has not).", "quantifier": "all images, sequences of transfer sizes and failures", "why_tests_cant": "All schedules of short transfers.", "anchors": ["src/update_handler.c:splice_with_progress", "src/update_handler.c:splice_file_to_outstream", "src/update_handler.c:splice_file_to_process_stdin"]}
{"id": "C74", "title": "The event log tells how each installation went and its readable form can be read back", "statement": "Each installation attempt logs exactly two install events with its transaction ID: one when it starts and one when it ends. The second says \"succeeded\" exactly when every step worked and the caller is told so, \"rejected: <error>\" exactly when the first step which failed refused the bundle (rejected or incompatible), and \"failed: <error>\" otherwise; it names the hash and version of a manifest only if the bundle was verified, and a bundle that was mounted is unmounted first. As long as no logged value contains a line break, a readable log file determines, for each entry, its time, its message and the values of all shown fields; the short form has one line per event. (Not so with line breaks: a bundle version containing one can make one event look like two.)", "quantifier": "every combination of step outcomes of an installation; every sequence of events (install, mark, service messages) with arbitrary texts, slot names, hashes and versions", "why_tests_cant": "Whether log texts are unambiguous is a statement about all pairs of event sequences, and the outcome table of an installation has far too many combinations to enumerate in tests.", "anchors": ["src/event_log.c:event_log_format_fields_readable", "src/event_log.c:event_log_writer_file", "src/event_log.c:r_event_log_message", "src/install.c:log_event_installation_started", "src/install.c:log_event_installation_done", "src/install.c:do_install_bundle", "src/mark.c:r_event_log_mark_active"]}
{"id": "C75", "title": "Cached block hash indexes belong to the image recorded for the slot", "statement": "In the data directory of a slot rauc only touches entries named hash-<digest>. Over any history of installations, failures, power cuts and restarts, an index cached under a digest came with an image of that digest (so the index used for the running slot matches the digest recorded for it), and any cached index came with some bundle. After an installation has ended (well or badly) only the index of the installed image is left. After a successful adaptive installation the next one finds the index again: for the slot as running slot and, moved aside, as target, also across a restart.", "quantifier": "every history of installations of images with and without adaptive data, with every combination of failing removals, renames, directory creations, exports and saves, and a power cut after any step", "why_tests_cant": "The cache is shared state of all past installations; stale entries only appear in particular interleavings of interruption and retry.", "anchors": ["src/slot.c:r_slot_get_checksum_data_directory", "src/slot.c:r_slot_move_checksum_data_directory", "src/slot.c:r_slot_clean_data_directory", "src/hash_index.c:r_hash_index_open_slot", "src/hash_index.c:r_hash_index_export_slot", "src/install.c:handle_slot_install_plan", "src/status_file.c:r_slot_status_load", "src/status_file.c:r_slot_status_save"]}
{"id": "C76", "title": "From the bundle file to the slots, over any history", "statement": "Take a system whose life is a sequence of installation attempts with arbitrary bundle files (local or streamed), options and outcomes, each run to its end or cut off by a crash anywhere, and restarts. Every write to a slot belongs to a bundle with a signature by exactly one signer who is trusted by the keyring and allowed by system.conf, all gates (minimum rauc version, compatible or install-check hook, minimum bundle version) were open, the bundle's contents were read through the signed payload or a dm-verity device with the signed root hash, the slot is writable, belongs to the configuration, is neither the booted slot nor in its group, and the written image is the one the signed manifest has for the slot's class and the system's variant. A bundle that is not signed like that causes no event at all. Consequently, at any time, a complete image in a slot was there at the start or was vouched for by a trusted signer in one of the attempts; what the status file says is true; and whatever the boot loader would boot is intact.", "quantifier": "all PKIs and verifiers with an honest OpenSSL chain check, all configurations with well-formed slot tables, all bundle files, options and outcomes of external steps, all histories of attempts, crash points and restarts", "why_tests_cant": "It composes signature, gates, target selection and writing over unbounded histories with arbitrary crash points; tests exercise single steps with a few keys and bundles.", "anchors": ["src/install.c do_install_bundle, launch_and_wait_default_handler, handle_slot_install_plan", "src/bundle.c check_bundle, mount_bundle", "src/signature.c cms_verify_sig, cms_verify_fd", "src/context.c"]}
{"id": "C77", "title": "Removing directory trees and pruning artifacts stays inside the tree", "statement": "Removing a directory tree (old slot data, stale artifacts, temporary directories) removes only entries at or below the given path: symbolic links in the tree are removed themselves and never followed, other file systems mounted below are not entered, nothing is added or changed elsewhere; if it reports success everything at and below the path is gone, and it does succeed when every system call in the tree works and nothing is mounted in it. An artifact nothing refers to is removed by pruning only if no file in it is open; it is reported as in use only if one is, and then it is left as it was. (Refuted: pruning always ends and succeeds for artifacts with no open file - a FIFO in an artifact blocks it forever, a device node makes it fail.) Relative file names in a configuration file denote files next to that file whatever the current directory, absolute names and PKCS#11 URIs are kept.", "quantifier": "all directory trees with links, mount points, FIFOs and devices, all failing system calls, all paths", "why_tests_cant": "The trees are unboundedly deep and wide, come from a bundle, and any call in the middle can fail; tests remove a few fixed trees.", "anchors": ["src/utils.c rm_tree, rm_tree_cb, r_tree_check_open, tree_check_open_cb, resolve_path", "src/artifacts.c r_artifact_repo_prune"]}
{"id": "C78", "title": "Encrypted bundles: exactly the named recipients can open them", "statement": "rauc encrypt only accepts a correctly signed bundle in crypt format, writes a new file that consists of the unmodified payload and the signed manifest encrypted to exactly the certificates in all files given with --to (each of which must be readable and contain at least one certificate and nothing broken), or fails leaving all files as they were. Two bundles with the same payload whose signed manifests encrypt to the same data give the same output: nothing of the manifest, in particular not the payload key, is left outside the encryption. On the device of any recipient the encrypted bundle is accepted exactly if the unencrypted one is, with the same payload, signature data and manifest, and it is known to have been encrypted; a device with no recipient's key never gets at the signed manifest. A crypt bundle that was not encrypted is never installed. (Refuted: re-signing an encrypted bundle keeps the manifest secret - the result carries it in the clear.)", "quantifier": "all bundles, recipient files and lists, keys and certificates, file system contents, failing or partial copies, local and streamed bundles, verification options", "why_tests_cant": "Tests encrypt to a few fixed certificates and open with one key; who else could open it and what leaks is a statement about all keys, lists and files.", "anchors": ["src/signature.c load_certs_from_file, cms_encrypt, cms_decrypt", "src/bundle.c encrypt_bundle, resign_bundle, check_bundle", "src/main.c encrypt_start", "src/install.c do_install_bundle (unencrypted crypt bundles)"]}
{"id": "C79", "title": "Slots mounted by others are found and not written", "statement": "At the start of every installation, and for every status request, the slots' external mount points are determined anew: a slot has exactly the path of the first entry of the mount table that mounts its configured device, under that name or through a loop device (or a partition of one) whose backing file is the slot's device; nothing is left over from earlier runs. It fails only if the backing file of some mounted loop device cannot be read. An installation writes to no device that was mounted then, unless the slot has allow-mounted and the write is done by an install hook of the bundle. (Refuted: every mounted slot is noticed - a device configured by a link such as /dev/disk/by-partlabel/x is not recognised under the kernel's name, and of two slots on one device only one counts as mounted; unrelated mounts never stop an installation - a network mount with /dev/loop7 in its name does.)", "quantifier": "all mount tables, loop devices and backing files, slot configurations with distinct devices, bundles, installations", "why_tests_cant": "The mount table is arbitrary and outside of rauc; tests mount one or two fixed devices.", "anchors": ["src/install.c resolve_loop_device, update_external_mount_points, pre_install_check_slot_mount_status", "src/slot.c r_slot_find_by_device"]}
{"id": "C80", "title": "From the text of system.conf to what may be written", "statement": "For every text of system.conf, command line and bundle: a bundle is accepted exactly if the file ends in a signature by one signer whose certificate chain meets every demand of the [keyring] section as written there (file and directory, allow-partial-chain, check-crl, check-purpose, use-bundle-signing-time, allowed-signer-cns, each overridden by the last matching --override and by --keyring/--keyring-directory), whose format is one that bundle-formats allows, and whose payload matches. Every slot an installation knows comes from a section [slot.CLASS.INDEX] with the device, type, bootname, readonly and parent written there. In every history of installations, crashes and failed attempts under this configuration, every block of data written to a device is from a bundle so signed, meant for this system by the text's compatible and min-bundle-version, and goes to the device= of a slot section that is not readonly and not part of the booted group; and, with one status file outside the slots and no two sections sharing a device, the system stays bootable.", "quantifier": "all configuration files, command lines, overrides, bundles, certificates, signers, histories of installations and crash points", "why_tests_cant": "The statement spans the configuration parser, the command line, signature checks, install gates and the write order; tests fix one configuration and one keyring.", "anchors": ["src/config_file.c parse_system_section, parse_keyring_section, parse_slots", "src/context.c r_context_configure", "src/signature.c setup_x509_store, cms_check_signer_cns", "src/bundle.c check_bundle", "src/install.c do_install_bundle, launch_and_wait_default_handler"]}
{"id": "C81", "title": "A streamed bundle leaves nothing behind: server process, socket, NBD device, privileges", "statement": "Whenever rauc info, polling or an installation of a streamed bundle returns (successfully or with an error at any step), no descriptor, no server process (or zombie) and no NBD device of it is left, provided the kernel's NBD netlink interface works; this carries over to any sequence of such runs of a service. Without that proviso: no process is left, a descriptor is left only if both removals could not use netlink, a device only if its removal failed or the answer to its creation was lost. In every run - also one that aborts or hangs - only open descriptors are used or closed, each is closed at most once. rauc waits forever for the server only if the device could not be removed and is still in use. rauc aborts exactly when the server dies before it has answered. 'rauc mount' leaves the server and the device running exactly as long as the bundle is mounted; after the user's umount the device disconnects and the server ends. The server started by root runs with the user, group and groups of the sandbox user (never with root's, unless that user is root). Refuted: rauc survives a server that dies (g_error aborts the service); no descriptor is left even without netlink; rauc never hangs; an ordinary user with primary group 0 can stream.", "quantifier": "all outcomes of every system call, of every answer of the server and of netlink; all histories of streaming runs; all credentials and user databases", "why_tests_cant": "The failure of every single step, and deaths of the server at every point, need a faulty kernel, and root; tests run a few of these paths and cannot observe leaks over a history.", "anchors": ["src/nbd.c: r_nbd_start_server, r_nbd_stop_server, r_nbd_setup_device, r_nbd_remove_device, r_nbd_free_device, r_nbd_free_server, nbd_server_child_prepare, nbd_server_child_setup", "src/bundle.c: mount_bundle, umount_bundle, free_bundle, check_bundle", "src/install.c: do_install_bundle", "src/main.c: mount_start"]}
{"id": "C82", "title": "Relative paths in the system configuration are relative to the configuration file", "statement": "A path in the system configuration (keyring path and directory, the handlers, the devices of slots, data-directory and statusfile) that is absolute, or a PKCS#11 URL, is used as written. A relative one leads - in every directory tree, however the name of the configuration file was given (absolute, relative, with repeated slashes, a bare name) and from whatever working directory the path is used later - to the very thing which it leads to in the directory of the configuration file. Without a configuration file (paths on the command line) the directory is the one rauc was started in. For every accepted configuration text this holds of the keyring, the three handlers and the device of every slot. The status file is in the data directory if only data-directory is given, per-slot if neither is given, the given one (resolved) otherwise; per-slot together with data-directory, and nothing else, is refused.", "quantifier": "all directory trees, working directories, names of configuration files and paths; all texts of configuration files", "why_tests_cant": "String manipulation of GLib (separators, dirname, joining) over all paths, and what a path means in an arbitrary directory tree; tests have a handful of literal paths.", "anchors": ["src/utils.c: resolve_path, resolve_path_take", "src/config_file.c: parse_system_section, parse_keyring_section, parse_handlers_section, parse_slots", "src/main.c: resign_start"]}
{"id": "C83", "title": "LastError, Progress and Operation reach D-Bus clients in time", "statement": "In every interleaving of the installation thread with the main loop, over any history of installations (from clients and from polling) and refused requests: whenever the service sends Completed, a client that has followed the PropertiesChanged signals knows, as LastError, exactly the error message of that installation, and the empty string if it succeeded. Between installations the property LastError is the message of the last one; while one works it is empty. Whenever the main loop has nothing left to do, the client's view of Operation, LastError and Progress is the current one. A progress report is known to the client as soon as it was made, as long as Operation is 'installing'. rauc install prints the message of a failed installation before it ends, unless a request of another client was refused in the meantime. Refuted: rauc install always prints the message (the refused request of a second client sets Operation to idle; if that change travels in the same signal as LastError, only the operation is printed).", "quantifier": "all histories of installation requests, polling installations, progress reports and results; all interleavings of the installation thread, the D-Bus handlers and the sources of the main loop", "why_tests_cant": "Property changes are sent by an idle source, or by a flush from another thread; the order of signals depends on the schedule.", "anchors": ["src/service.c: service_install_cleanup, r_on_handle_install_bundle, set_last_error, send_progress_callback", "src/install.c: install_thread, install_done, install_run", "src/polling.c: polling_install_cleanup, polling_trigger_install", "src/main.c: on_installer_changed"]}
{"id": "C84", "title": "JSON output and the JSON event log can be read by any JSON parser and say what is known", "statement": "For every manifest the output of rauc info --output-format=json or json-pretty is one JSON value with the manifest's compatible, version, description, build, format, hooks, hash and, in order, all images with their attributes, whatever characters the strings contain; json-2 has exactly the known values at their paths, including all [meta] entries. For every state of the service and every order of the slots, rauc status with JSON output is one JSON value with the system's compatible, variant, version, booted slot and primary slot, each slot of the service exactly once with its attributes and, with --detailed, its recorded status, and all artifact repositories. If a slot's state is unknown, rauc status aborts. A JSON event log is a sequence of JSON values, one per event, with its time, type, message and fields; the compact one has one line per event. Messages with line breaks cannot forge entries (in contrast to the readable log, C74). Refuted: with --dump-cert or --dump-recipients the JSON output of rauc info is still JSON (the dump is appended as plain text).", "quantifier": "all manifests, service states, hash table orders and event sequences; all strings; every JSON generator whose text is JSON for its tree", "why_tests_cant": "Tests compare a few outputs; strings with quotes, control characters or line breaks and missing values are not tried, and the order of slots is that of a hash table.", "anchors": ["src/main.c: info_formatter_json_base, info_formatter_json_2, r_status_formatter_json, info_start", "src/event_log.c: event_log_format_fields_json", "src/manifest.c: r_manifest_to_dict", "src/artifacts.c: r_artifacts_to_dict"]}
{"id": "C85", "title": "Durations and progress lines show the right values", "statement": "For every number of seconds the printed duration (\"1d 2h 3m 4s\") adds up to exactly that number, with units in falling order, each smaller than the next larger unit, zero parts left out and \"0s\" for zero; a duration text has only one meaning, so different durations print differently. For every percentage from 0 to 100 and every terminal of at least seven columns the progress bar of rauc install leaves exactly one column free, marks at least the given share of the bar and at most one mark more, is full at 100 and never shrinks when the percentage grows. A progress line determines percentage and message. Refuted: at 0% the bar is empty (it has one mark); the bar line fits every terminal (it needs six columns).", "quantifier": "all 64-bit durations, all percentages, terminal widths and messages", "why_tests_cant": "Tests check five durations and no bar; sums, rounding and limits range over all numbers and widths.", "anchors": ["src/utils.c: r_format_duration", "src/main.c: make_progress_line, on_installer_changed", "src/polling.c"]}
{"id": "C86", "title": "Each repository type gets its artifact in the right form", "statement": "For every artifact image of a bundle made by rauc bundle, with any conversions, every repository type and every combination of failing system calls: if the installation reports success, the artifact in the repository is, in a repository of files the file itself, in one of trees exactly the tree of the archive (no matter whether it was extracted when the bundle was made or is extracted on the target), and in one of composefs images what is made of the composefs conversion; in a repository of files it is a regular file of the bundle, unchanged, whatever the bundle contains; if it reports failure, there is no artifact of that name or (only the last sync failed) the complete right one. If everything works, the installation succeeds exactly when the conversions fit the type: files need the unconverted image or 'keep', trees any of these or 'tar-extract', composefs 'composefs'. A manifest which passed the checks never crashes rauc here, whatever the bundle contains. Refuted: every artifact of a bundle can be installed into a repository of every type.", "quantifier": "all artifact images, lists of conversions, bundle contents, repository types and failures of system calls", "why_tests_cant": "The form depends on the type, the order and number of conversions and what was kept; failures at each step leave something behind.", "anchors": ["src/artifacts.c: r_artifact_install, files_artifact_install, tree_artifact_install_tar, r_tree_artifact_install_extracted, artifact_get_converted", "src/install.c: pre_install_check", "src/manifest.c: check_manifest_bundled", "src/bundle.c: convert_images"]}
{"id": "C87", "title": "The slot list of rauc status is complete and marks only the primary", "statement": "For every loaded configuration, states and order of the hash table: the readable output of rauc status has a line for every slot; the slots come in blocks of a slot followed by exactly the slots whose parent it is; a top-level slot is shown exactly once, a slot with a parent once too unless its class also has a top-level slot (then twice), so without such mixed classes the list is a permutation of the configured slots. Without its colours, the line of a slot is the mark, the name in brackets, device, type and state. Below it come bootname, description, mount point and boot status; the header names the booted slot (the only one in that state) and the primary. The only lines starting with the mark of the primary are the primary slot's (one, if it is a top-level slot with a bootname), none if there is no primary. Refuted: each slot is always shown exactly once.", "quantifier": "all configurations, orders of the hash table, states, details, repositories and terminals", "why_tests_cant": "Depends on how classes, parents and the iteration order interact in arbitrary configurations.", "anchors": ["src/main.c: r_status_formatter_readable, r_string_append_slot, r_string_append_repo", "src/slot.c: r_slot_get_root_classes, r_slot_get_all_of_class, r_slot_get_all_children, r_slot_get_parent_root"]}
