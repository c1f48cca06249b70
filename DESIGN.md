# Design of the formal model of rauc

## 1. Structure

* `rocq/theories/T.v` - the model of topic T: executable total functions over plain data. Every definition is commented with
  the file and lines of `/repo` it models and with the simplifications made.
* `TSpec.v` - the vocabulary of the property (independent of the model's helpers where the property is not about them).
* `TProofs.v` and other auxiliary files - lemmas.
* `Prop_T.v` - only the property theorems (`Cnn_...`), each with its full statement and closed by `exact lemma`, beside it
  non-vacuity examples (concrete, non-trivial cases meeting the hypotheses) and `Print Assumptions`.
* `seeded/LOG.jsonl` - one line per wrong program the theorems were tested against: edited definition, edit, broken claim, theorems that
  failed, theorems tightened because of it.

Conventions: a C function that may fail returns `Ok x`, `Err ...` (a reported GError) or, where the C code can abort the process
(`g_error`, `g_assert`, NULL dereference), a separate abort result. The environment (kernel calls, external tools, server, schedule) is an explicit
argument - an oracle list, a function or a state - over which the theorems quantify. Crash properties quantify over every prefix of the list
of effects, and where the medium may reorder or tear writes, over every subset of the unsynchronised ones. Loops of the C code are fixpoints
on structurally decreasing data or on fuel; where fuel is used, a theorem or lemma shows that the result does not depend on it once it is large enough,
or that the remaining case is a real non-termination of the code.

## 2. Properties: what is modelled, how it is proved

The English statements are in `properties.jsonl`; the theorem names per property are in `MANIFEST.json`. "Spec" names the file with the vocabulary a reader needs for the theorem statements.

| property | model and specification | method of proof |
|---|---|---|
| C01 Install never targets the running system | Slot.v, Install.v (determine_slot_states, select targets, plans), InstallRun.v (writes as events) | invariants by induction over slot table, class list and plan list; then over the event trace |
| C02 One consistent target group | Install.v | structural lemmas on the selection fold |
| C03 Image selection by variant | Install.v `make_plans` | induction over classes and images; uniqueness of the selected image |
| C04 Installation is crash safe with respect to slot status | InstallRun.v; slot contents and status file as persistent state | invariant over all prefixes of the events of any history of runs |
| C05 Boot target only switched after complete success | InstallRun.v | trace property over all prefixes |
| C06 Unchanged slots are skipped only when proven equal | InstallRun.v decision function and content tracking | invariant: status ok implies content is what the digest names |
| C07 Slot status survives a save/load cycle | KeyFile.v (groups and keys), StatusFile.v | round trip and frame lemmas on key files; iso_law hypothesis for time stamps |
| C08 U-Boot: activated slot becomes primary | Uboot.v; environment as a function from names to strings; BOOT_ORDER as text | string lemmas on splitting/joining; set/get laws |
| C09 U-Boot: bad slot is never primary | Uboot.v | as C08 |
| C10 U-Boot: set-primary is safe at every crash point | Uboot.v; environment writes as a list | all prefixes of the write list |
| C11 GRUB: activation, state and primary agree | Grub.v | as C08 |
| C12 Barebox: activation, state and primary agree | Barebox.v; priorities and attempts in 32 bits | case analysis, order arguments on priorities |
| C13 EFI: activation, state and primary agree | Efi.v; entries, BootOrder, BootNext, BootCurrent | list lemmas on filter/position |
| C14 Mark identifiers resolve correctly | Mark.v | decision procedure characterised by cases, soundness and completeness |
| C15 Version comparison is a total preorder matching SemVer core | Semver.v; the GRegex-free parser on characters | parser correctness against a grammar; order laws on parsed versions |
| C16 Hex encoding round trips | Hex.v | induction over bytes |
| C17 Exact I/O despite short reads and writes | ExactIO.v; the loops over an oracle of short transfers, EINTR and errors | induction over the oracle; totality theorem |
| C18 Stream copy writes exactly the announced size | ExactIO.v `copy_stream`; BootRegion.v raw image writer | induction over chunks |
| C19 Hash index lookup is sound and complete | HashIndex.v; binary search as in the code over the sorted index | invariant of the search interval |
| C20 Adaptive update reproduces the image | HashIndex.v; target evolves while it may also be a source | loop invariant: written prefix equals image, or two blocks collide |
| C21 Verity tree binds the payload | Verity.v (+Layout, Top); levels, salt, padding | induction over levels; collision extraction |
| C22 MBR/GPT boot partition switch | Disk.v (sectors, fsync, crash states), BootRegion.v, Gpt.v | crash states of every prefix; disjointness of halves by arithmetic |
| C23 eMMC boot partition toggle | Emmc.v; PARTITION_CONFIG byte | finite case analysis over all 256 values lifted to all states |
| C24 boot-raw-fallback keeps one valid boot image | Disk.v, BootRegion.v (RawFallback part), RawFallbackRom.v | crash states of every prefix |
| C25 Event log rotation | EventLog.v; files as lists of entries; histories of operations with failures and crashes | invariant by induction over histories |
| C26 Statistics ring buffer | Stats.v; ring of 64 values, rationals | refinement to the list of all values |
| C27 Polling back-off and gating | Polling.v; 32-bit arithmetic explicit; service loop as transition system | arithmetic; invariant over runs |
| C28 Progress is monotone and bounded | Progress.v; step stack, rationals | invariant over well-nested step sequences |
| C29 Slot parents are resolved to roots | Config.v, ConfigParents.v; hash order a parameter | fixpoint iteration along chains; order independence |
| C30 Bundle format restrictions | Config.v, ConfigFormats.v | characterisation (iff) |
| C31 Bootnames are unique | Config.v | characterisation (iff) |
| C32 Manifest save/parse round trip | Manifest.v over KeyFile.v | round trip through the key file, image by image |
| C33 Accepted bundled manifests are safe | Manifest.v check functions | case analysis over formats, induction over images |
| C34 Image section names | Manifest.v parse_image section names | string splitting lemmas; injectivity |
| C35 Bundle trailer round trip and malformed trailers | Bundle.v; file as bytes, big-endian trailer | list arithmetic |
| C36 No bundle content is used unverified | Bundle.v; open/check/mount as an event trace | trace property, CMS/squashfs/dm-verity as parameters |
| C37 Exclusive access decision | Bundle.v; stat results as inputs | characterisation of the decision |
| C38 Artifact references round trip | Artifacts.v; repository directory with symlinks | round trip through the directory |
| C39 Artifact pruning never removes referenced artifacts | ArtifactsPrune.v | exact characterisation of the result |
| C40 Artifact installation is crash safe | ArtifactsCrash.v; each entry has a durable and a volatile state | invariant over all histories, crash points and subsets of unsynced changes |
| C41 Streaming reads are complete or failed | Nbd.v; server and transfers as a transition system | invariant over all interleavings; termination measure |
| C42 Update handler selection | Handlers.v; the two tables of the code | table inspection lifted to all names and types |
| C43 Version and compatibility gates | Gates.v; order of the checks as a trace | trace property |
| C44 Hook environment keys | EnvKey.v, shell.c | induction over characters |
| C45 Slot selection policy | Install.v `select_inactive_slot` | fold invariant |
| C46 A bootable system at every crash point | InstallRun.v, BootInst.v, EfiInst.v | inductive invariant over histories of installations, failures, crashes, reboots; instantiated for the four boot loaders |
| C47 Strict configuration | Config.v, ConfigRead.v, ConfigLoad.v (whole load_config) | exactness of reading (every group and key consumed) and of the slots built |
| C48 Sizes with suffix | Config.v, ConfigSize.v | decimal printing/parsing lemmas |
| C49 Streaming configuration | NbdConfig.v; response oracle | induction over the attempts |
| C50 Only one operation at a time | Service.v; main loop with method calls, install thread, polling, callbacks | invariant over all schedules |
| C51 Booted slot detection follows the documented sources | Bootname.v; regular expression search and strstr literally | lemmas on first match; combination with Install.v |
| C52 Encrypted payloads: dm-crypt format, lossless, whole-file replacement | Crypt.v; AES-CBC a parameter | induction over sectors |
| C53 Downloads are complete, limited and never overwrite | Download.v; stdio buffer, curl callbacks, file system room | induction over the chunks |
| C54 The right system configuration is used, and a broken one is never ignored | Context.v over Config.v | case analysis; key file override lemmas |
| C55 System variant: one well-defined value, used for image selection | Context.v | line splitting lemmas; combination with Install.v |
| C56 Signature policy: who may sign a bundle | Signature.v (store setup, cms_verify_bytes, signer CNs, signing time, code-sign purpose, cert chain, signing check) plugged into check_bundle of Bundle.v; Spec: SignatureSpec.v | exact characterisation of acceptance, then the assumed law of X509_verify_cert; concrete certificate world as witness |
| C57 Derived bundles are complete or absent | Resign.v; files as a map, partial copies and writes; keyring pointers with identity | case analysis over the steps; composition with C35 and C56 |
| C58 A slot update does what the slot type requires, only to that slot, and cleans up | SlotWrite.v: every slot handler of update_handler.c as a program over external actions (programs with argv, hooks with environment, mounts, device operations) whose outcome an arbitrary oracle chooses from the history | compositional: each handler produces a word of an explicit language of histories, or a cut of one followed by cleanup (SlotWriteProofs); shape, balance of mounts, confinement, recipe derived from the languages by structural lemmas; changes of a successful run compared with the recipe table in SlotWriteSpec.v |
| C59 Slot hooks and tools are told the truth | SlotWrite.v: hook_env, vfat_label, tar_flag | hook actions located in the languages of C58 with the mount table they meet; lookups in the environment computed; label by case analysis over all 256 characters; suffix matching by an overlap lemma for suffixes; counterexamples by execution |
| C60 Check of the complete bundle before mounting | PreCheck.v: read_complete_dm_device over a list of good/bad blocks, for an arbitrary kernel and for two concrete ones; Spec: PreCheckSpec.v | induction over the remaining chunks; exact characterisation; counterexample for the page cache |
| C61 Bundle mounting: layers, clean-up, order of checks | DmStack.v: mount_bundle, umount_bundle, r_setup_loop, r_dm_setup, r_dm_remove over a kernel state (loop devices, descriptors, device-mapper devices with deferred removal, mounts) driven by an arbitrary oracle; Spec: DmStackSpec.v | symbolic execution of each function from each state it meets, with the kernel state exact and the trace abstracted to counts and the order before mount; induction over the tries |
| C62 Creating a bundle: inputs untouched, faithful contents, nothing partial left | BundleCreate.v: create_bundle and its steps over a tree of names with inodes (hard links shared with the content directory, symbolic links resolved as the kernel does) and an arbitrary oracle for system calls and tools; Spec: BundleCreateSpec.v (what a tree shows, what is seen through links) | the recursive linking proved equal to the inductive relation sees (BundleCreateLink), framing lemmas for names outside the touched set (Frame, Proofs), inversion of each phase of a successful run (Run, Out, Done, End), preservation of directories for conversions (Conv), log invariants for tools (More), an invariant of the index file (Index), a symbolic run in the good case with a converse of the linking lemma (Live); refutations by execution (Cases) |
| C63 Converting a bundle to a casync bundle keeps its meaning and its surroundings | CasyncConvert.v: create_casync_bundle, convert_to_casync_bundle, casync_make_arch/blob, extract_bundle on the file system of BundleCreate.v; ShellWords.v: g_shell_quote and the shell's token recognition for words, quotes and && | inversion of complete runs with an invariant for the image loop (directory, inodes, log); frame property of the directory for temporary files for every step; log predicates for the commands; quoting by induction over the words; completeness by constructing the run; concrete runs for the refutations |
| C64 Shell output is safe to evaluate and says what is known | ShellOut: env_to_shell, info and status formatters, slot dictionaries of the service and their reading by the client, artifact status records; ShellOutSpec: a shell evaluator for assignment texts | Names as lists of underscore-free words (join is injective), so that variables with different stems or numbers differ; induction over slots, images, repositories; evaluator run on quoted text by induction over the value |
| C65 Handlers and the install-check hook are told the truth, and their answer counts | HandlerEnv: add_system_environment, prepare_environment, handler output, launching of handlers, install-check hook; the environment is a list of NAME=value strings | getenv of the built environment equals the first of (documented rows, inherited, system-info, meta) by induction over assignments, slots and group members; names as word lists as in C64; composed with InstallProofs.target_group_spec and Context.system_info; output lines by splitting lemmas |
| C66 Custom boot loader backend: what was set is what is reported | Custom: the five requests of custom.c and the dispatch of bootchooser.c over an arbitrary stateful program; CustomSpec: the documented interface as a relation between program runs and a view (primary, states) | case analysis for arbitrary programs; for documented ones a simulation of the view by induction over the history; trimming is unique (ContextProofs) |
| C67 EFI backend: the text interface to efibootmgr loses nothing | EfiText: parsing of the output of efibootmgr by lines and all calls, over an arbitrary stateful program; EfiTextSpec: the output format and the manual of the tool as relations | for each looked-for line, all other parts of the output are shown not to match; the calls then refine Efi.v, and the effects follow from the theorems of C13 |
| C68 Composefs artifacts always keep the objects they need | Cfs.v: composefs repositories (objects, artifacts, temporary entries, links) as a disk with a log of operations; pruning, object collection from an image tree, installing with copied objects, link commits, whole installations, failing calls; CfsSpec.v: what may be on the disk after a crash, complete artifacts, sessions and histories | Hoare rules over (visible state, set of possible disk states) with invariants for pruning, copying and committing; induction over sessions and histories; induction over image trees; counterexample executions computed by the kernel |
| C69 rauc install over D-Bus: options, bundle name and exit code; InspectBundle | DbusInstall.v: option dictionaries of client and service, resolve_bundle_path, a transition system of clients, bus and service, r_manifest_to_dict | invariant over all step sequences (what each client dispatched decides its exit code); dictionary algebra; refutations by concrete interleavings |
| C70 HTTP requests of streaming; polling is fresh | Http.v: info headers, access arguments -> server record -> dictionary -> context -> libcurl options, header callback with dates and ETag, configure loop, polling_fetch | table of headers; projection onto the model of C49; induction over attempts (last header wins); invariant over polls: the stored ETag belongs to the stored manifest |
| C71 Command line: operations and exit codes | Cli.v: command table, options of each command, all *_start functions as sequences of operations with an oracle for their outcome, path checks of bundle_start; InstallRun.v for write-slot | case analysis over the commands against the table `asks` (CliSpec.v); structural induction for the paths; counterexamples |
| C72 Boot events and links of the active slots | Startup.v: service_start up to r_service_run, histories of boots over StatusFile.v's central status file, create_run_links | induction over steps and boots with the stored boot ID as invariant; fold characterisation for the links; counterexample |
| C73 Images handed to external programs arrive completely | Splice.v: the splice loop with arbitrary transfer sizes and failures, percentages, division by st_size | induction over the transfers; counterexample for the empty image |
| C74 The event log tells how each installation went and its readable form can be read back | the events of `install.c`/`mark.c`/`event_log.c`, the readable log format, and the control flow of `do_install_bundle` with opaque step outcomes | the log text is turned into lines; lines without line breaks are recovered (injectivity), head lines and field lines are told apart by their first character; case analysis over the steps for the installation |
| C75 Cached block hash indexes belong to the image recorded for the slot | IndexCache.v: the entries of the data directory of a slot, status in memory and on disk, every file operation as an event; histories with power cuts after any event | the events of an installation are classified; invariants by induction over events and histories; the reuse theorem follows the concrete run |
| C76 From the bundle file to the slots, over any history | no new code: `EndToEndSpec.v` composes Signature.v, Bundle.v, Gates.v and InstallRun.v; a history of attempts is an inductive relation parameterised by a predicate on attempts | an attempt is either without effect on the modelled state or is the default handler run on the images of the mounted manifest; that manifest is the signed one up to defaulted sizes; histories are lives (C04) and proper lives (C46); induction over histories for provenance |
| C77 Removing directory trees and pruning artifacts stays inside the tree | Trees.v: a file system with links, device numbers, open files; kernel path resolution; nftw with the two callbacks; the removal step of pruning; resolve_path | induction over the fuel of nftw (shown to suffice) with "only entries below changed" as invariant of the fold over the names; concrete trees for the refutations |
| C78 Encrypted bundles: exactly the named recipients can open them | Recipients.v: PEM reading loop, collecting recipients, cms_encrypt/cms_decrypt, encrypt_bundle and encrypt_start on the files of Resign.v and check_bundle of Bundle.v | inversion of successful runs; check_bundle computed for both files side by side; a toy encryption with all laws as witness and for the refutation |
| C79 Slots mounted by others are found and not written | MountPoints.v: the search for a loop device name, sysfs, the scan of the mount table; composed with install of InstallRun.v through ck_mounted | induction over the mount table against the first matching entry; C01 for the writes; concrete tables for the refutations |
| C80 From the text of system.conf to what may be written | `SystemConf.v` connects the records filled by `Config.v`/`Context.v` with those read by `Signature.v`, `Bundle.v`, `InstallRun.v` and `Gates.v`; no logic of its own. `SystemConfSpec.v` states the demands on signer, format, compatible, version and slots in terms of the text of the file and the --override options | inversion of the parsers (C56/C57) gives each record member as a function of the text; substituted into C41/C43/C76 and the boot-safety theorem |
| C81 A streamed bundle leaves nothing behind: server process, socket, NBD device, privileges | `NbdLife.v`: start_server, reads, setup_device, mount, remove_device, stop_server, umount, free_bundle, the commands info/install/mount over a world of descriptors, one server process, one NBD device; child_prepare/child_setup on credentials | shape lemmas for check_bundle and mount_bundle, then a case analysis over all outcomes with explicit end states; induction over reads and over histories; the log of calls is replayed by an independent checker of descriptors |
| C82 Relative paths in the system configuration are relative to the configuration file | `Paths.v`: resolve_path with g_path_is_absolute, g_path_get_dirname and g_build_filename on strings; data-directory/statusfile; the paths used, computed from the values as written in `Config.v`. `PathsSpec.v`: a directory tree, walking along the names of a path, the directory a file lies in | names of a joined path are the concatenated names (induction over strings), walk composes; inversion of the parsers for the text |
| C83 LastError, Progress and Operation reach D-Bus clients in time | `Signals.v`: the three properties, their pending changes with the original values, the emitting source, flushes, the sources of the main loop, the thread as a sequence of atomic steps; `run` over any schedule. `SignalsSpec.v`: what a client knows after a sequence of signals | an invariant of every step: the view is the original value of a pending change, else the current one; a pending change of LastError is sent before the pending end of the installation; a second invariant for what is printed |
| C84 JSON output and the JSON event log can be read by any JSON parser and say what is known | the trees built by the JSON formatters of `main.c` and `event_log.c` (members set twice keep the last value), the D-Bus dictionaries turned into JSON, and the printed texts; the text generator is a parameter | an independent JSON reader is specified; a round trip is proved for a concrete generator by induction over trees, and for every generator the reader reads back, the value read is shown to have each member exactly once with the right value; from the service via the proof of C64 |
| C85 Durations and progress lines show the right values | `r_format_duration`, `make_progress_line` and the lines printed for Progress, function by function | arithmetic of truncating division, words with single blanks (split/join), a closed form of the bar loop; injectivity by cutting at the first percent sign |
| C86 Each repository type gets its artifact in the right form | `ArtType.v`: the kinds of repository, artifact_get_converted, r_artifact_install with its three installers, the names given by install.c, the checks of manifest.c; tar, cp and the composefs installation are parameters | symbolic case analysis from a specification of what bundle creation makes of an image and its conversions; the state of the repository after each failing step |
| C87 The slot list of rauc status is complete and marks only the primary | `Listing.v`: the lines of the readable status on the slots, classes and parents of `Install.v` | counting occurrences over classes and blocks; the mark by its first byte on every line; an independent terminal that drops colour sequences |

## 3. Trusted base

* Coq 8.16.1's kernel (and the `vm_compute` reduction machine, used for examples and finite case analyses).
* `Print Assumptions` is printed after each property theorem: every one is "Closed under the global context". No axioms, no `Admitted`, no functors or
  module types. (`vcheck` lists `Coq.ssr.ssrunder.Under_rel.*`: these come from loading the ssreflect tactic library of the standard
  distribution; no theorem depends on them.)
* The reading of the C code: each definition cites what it models. The simplifications are listed in the comment of the definition and, where they restrict a
  property, in the note of `MANIFEST.json`.

### What stands for the environment

* External programs (fw_printenv/fw_setenv, grub-editenv, barebox-state, efibootmgr, mount, mkfs, tar, custom boot backend, handlers, hooks) are
  represented by their documented effect or by their output as an input of the model; they may fail at any time where the theorem says so. Parsing the
  text output of efibootmgr is C67; the custom backend is any program (C66).
* GLib: GKeyFile as ordered groups of key/value pairs (text syntax and escaping not modelled; group names distinct); g_ascii_strtoull, g_strsplit,
  g_strchomp, g_key_file_get_boolean etc. are modelled; GDateTime's ISO format is a parameter with the law that parsing a printed time stamp gives
  it back up to fractions of a second; GHashTable iteration order is a parameter; gdouble/gfloat are rationals; main-loop callbacks of equal priority are FIFO.
* Kernel: system calls are oracles with short counts and errors (C17, C18), block devices have whole-sector transfers and lose any subset of unsynced sectors in a crash
  (C22-C24); rename is atomic; for directories (C40) an fsync of the directory makes entries durable but not file data, syncfs makes both durable;
  dm-verity, dm-crypt and squashfs are trusted to present the data they are set up for; libfdisk is trusted to replace a GPT atomically.
* OpenSSL: CMS verification is a parameter of C36; SHA-256 is a parameter (length 32 where needed) and collisions are extracted rather than excluded;
  AES-CBC is a parameter (length preserving, decryption inverts encryption).
* curl: an oracle delivering headers, chunks, status codes and errors in any order; the NBD socket itself does not fail.
* Persistence in C04-C06 and C46: effects become durable in program order (the handlers fsync, the status file is replaced by rename).

## 4. What is modelled and what is not

| source file | modelled | not modelled |
|---|---|---|
| src/artifacts.c | repository reading, installation (by type: C86), activation, commit, prune, prepare | what tar and cp themselves do |
| src/artifacts_composefs.c | object names, collecting objects, prepare, prune, install (Cfs.v) | converting (mkcomposefs), directory tree of the store, mounting |
| src/bootchooser.c, src/bootloaders/*.c | name lookup, get/set state, primary for U-Boot, GRUB, barebox, EFI, custom, noop; current boot name; efibootmgr output and calls (C67) | error texts |
| src/bundle.c | trailer, signature append/resign sizes, check_bundle, exclusive access, mount and unmount (C61), complete read (C60), derived bundles (C57), extraction decision, encryption/decryption of payloads, creation and its temporary workspace (C62), conversion to casync (C63) | mksquashfs and casync themselves |
| src/checksum.c, src/crypt.c, src/verity_hash.c, src/hash_index.c, src/stats.c, src/event_log.c, src/mbr.c, src/gpt.c, src/emmc.c | as cited, event log lines readable (C74) and JSON (C84) | json-glib's generator, OpenSSL error paths |
| src/config_file.c | load_config with all sections; paths relative to the file | shell quoting |
| src/context.c | boot name, configuration loading, overrides, variant, system-info handler, progress | - |
| src/install.c | slot states, external mount points (C79), target selection, plans, gates, slot/artifact installation, thread hand-over, handler environment and output, install-check hook (C65) | error texts |
| src/manifest.c | parsing, checks, saving, section names | - |
| src/mark.c | all | - |
| src/mount.c, src/dm.c | loop setup, device-mapper setup and removal, bundle mounts (C61), slot mounts (C58) | streaming (NBD) devices below the stack |
| src/nbd.c | server loop, transfers, retry, configuration, request headers and TLS options (C70), start/stop of the server, device set up/removal and privileges (C81) | libnl and libcurl themselves |
| src/network.c | download to file with limits | HTTP details |
| src/polling.c | scheduling, gating, installation and reboot decision, conditional requests (C70) | - |
| src/service.c | method handlers, mutual exclusion, signals, option dictionaries (C69), property changes (C83) | wire marshalling |
| src/signature.c | store setup, purpose, signer selection, signing time, CN check, signing (C56), encryption to recipients (C78); a parameter in C36 | OpenSSL itself |
| src/slot.c, src/status_file.c, src/shell.c, src/update_utils.c | as cited | - |
| src/update_handler.c | handler table, raw/adaptive/boot region/eMMC writers, device size check; every handler as a sequence of external actions with hooks (C58, C59) | what mkfs, tar, ubiformat, flash tools do to the device |
| src/utils.c | hex, sizes, semver, environment keys, exact I/O, key file getters, directory trees, file names | temporary files |
| src/main.c | configuration modes, shell output of info and status (C64), rauc install as a D-Bus client (C69), JSON output of info and status (C84), commands, their operations and exit codes (C71), service start (C72), readable slot list (C87) | readable output of info, json-glib's generator, option parsing |

## 5. Refutations

Theorems ending in `_refuted` prove, on the same model, that a stronger statement one would expect is false of the code, with a concrete witness. The side conditions of the main theorems are exactly the ones these witnesses show to be needed.

* C01: `C01_booted_child_refuted`, `C01_shared_device_refuted` — Proved for a booted top-level slot (the only kind that may have a bootname). _refuted theorems document that a slot identified as booted by device or name which is itself a child does not protect its siblings/parent, and that two slots configured on the same device are not detected.
* C04: `C04_per_slot_refuted` — For the central status file. Assumes writes persist in program order (handlers fsync, status file replaced by rename). _refuted theorem: no such guarantee for statusfile=per-slot.
* C05: `C05_two_boot_slots_refuted` — _refuted theorem: a bundle with images for two root slots that have a bootname aborts the process (g_error), before anything is written.
* C06: `C06_no_digest_refuted` — _refuted theorem: images without digest (install hook without file) compare equal, so a different bundle's hook can be skipped when install-same=false.
* C07: `C07_transaction_refuted` — Time stamps are kept up to fractions of a second (GLib's ISO format is a parameter with a law). The transaction id is not one of the fields the loader reads; _refuted theorem: it is lost from the file when any slot is saved after a restart.
* C09: `C09_uboot_good_undoes_bad_refuted` — _refuted theorem: 'mark good' does not undo 'mark bad' on U-Boot because the slot stays out of BOOT_ORDER.
* C13: `C13_efi_mark_bad_bootnext_refuted`, `C13_efi_mark_bad_duplicate_refuted`, `C13_efi_current_bootname_refuted`, `C13_efi_empty_order_refuted` — Side conditions of mark bad (BootNext not pointing to the slot, unique entry names) are part of the statement; the _refuted theorems show each is needed. Parsing of the efibootmgr output is not modelled.
* C15: `C15_hyphen_refuted`, `C15_big_number_refuted` — SemVer precedence for numbers below 2^64. _refuted: hyphens inside pre-release identifiers are refused; identifiers of 20+ digits compare as text.
* C18: `C18_short_refuted` — C18_raw_image is the raw image handler on a device; C18_copy the stream copy. _refuted theorem: the stream copy itself reports success when the input ends before the announced size; the callers' size checks are what catches it.
* C19: `C19_smallest_refuted`, `C19_long_index_refuted` — Completeness holds without an upper validity limit, or when the hash is not the smallest one of the index; the _refuted theorems show the missed chunk otherwise, and the one for index files that are longer than the data. The missed lookups only cost a re-read from the bundle.
* C20: `C20_short_index_refuted`, `C20_small_target_refuted` — The hash function is a parameter: a block of the target is equal to that of the image, or these two blocks are a collision. The index file of the bundle has to describe and cover the image: _refuted theorem for an index shorter than the image (success with a truncated target). casync is not modelled.
* C22: `C22_mbr_size_refuted`, `C22_mbr_trunc_refuted`, `C22_mbr_clear_refuted` — Block device model with sector-granular crash states: every sector written after the last fsync may or may not be durable. Assumptions: one sector is transferred whole, bytes < 256, sector size 512..65536, region below 2^32 sectors, halves < 4 GiB; for GPT libfdisk is trusted to replace the table atomically. _refuted theorems: the size of the booted partition is not checked (a booted partition covering both halves is partly overwritten); LBA truncation to 32 bits above 2 TiB; the 32-bit counter of the clear loop wraps for halves >= 4 GiB and the booted half is overwritten.
* C23: `C23_unset_refuted` — PARTITION_CONFIG as a byte; register writes may be lost or report an error late. _refuted theorem: if no boot partition was enabled before, a register write that had no effect is reported as success.
* C24: `C24_reorder_refuted`, `C24_hang_refuted`, `C24_oversize_refuted` — Assumes the announced size equals the image length. C24_one_complete needs no assumption on write order; C24_rom (what a ROM that tests the primary header boots) needs in-order durability, and C24_reorder_refuted shows that it does. Further _refuted theorems: a region that starts at the end of the device makes the handler loop forever; an image longer than announced destroys both halves before the error is reported.
* C25: `C25_one_file_refuted` — Histories of writes, rotations, failures and crashes of one logger which owns its files; the formatting of a line is not modelled. _refuted theorem: max-files=1 keeps two files.
* C26: `C26_max_refuted` — Rationals instead of gdouble. _refuted theorem: the maximum starts from G_MINDOUBLE, so it is wrong if no value is positive.
* C27: `C27_weekly_refuted`, `C27_busy_loop_refuted`, `C27_no_version_refuted` — The delay theorem covers intervals below 2147484 s. _refuted theorems: a weekly interval overflows the 32 bit milliseconds so the server is polled every 10 s; a manifest without version aborts the service. No-repeat holds within one run of the service.
* C28: `C28_explicit_refuted` — Rationals instead of gfloat (no rounding). Proper nesting: substeps fit into the declared number, explicit percentages only on inner steps without substeps. _refuted theorem: the code is meant to reject explicit percentages on steps with substeps but tests substeps_total < 0; then the reported percentage can go down.
* C29: `C29_order_refuted`, `C29_empty_refuted` — Whole load_config is modelled (text format of GKeyFile, path resolution and shell splitting are not). Hash orders are parameters; with chains of at most 101 links the result does not depend on them. _refuted theorems: a chain of 102 links is accepted or refused depending on the hash order; an empty parent= is silently ignored.
* C32: `C32_min_rauc_refuted`, `C32_size_refuted` — _refuted theorems: prepare_manifest drops min-rauc-version; sizes of 2^63 and more come back negative.
* C33: `C33_emptyfs_refuted` — _refuted theorem: an emptyfs image without install hook passes the checks without digest/size and aborts later.
* C36: `C36_unaligned_refuted`, `C36_remount_refuted` — CMS, squashfs and dm-verity are parameters of the theorem. _refuted theorems: a signed local verity bundle of unaligned size aborts in the payload check (g_assert); mounting a plain bundle twice aborts.
* C39: `C39_uppercase_refuted`, `C39_hidden_link_refuted` — Exact description of what pruning removes, for every directory. "Every symlink resolves after" holds for visible links to artifacts with lower-case digests; the _refuted theorems show the other cases.
* C40: `C40_stale_link_refuted`, `C40_alias_refuted`, `C40_alias_dangling_refuted` — Any number of runs, any failing system calls, any crash point and any subset of unsynced changes. _refuted: a stale temporary link blocks all later updates; alias links keep the old version or dangle.
* C41: `C41_short_refuted`, `C41_wrong_range_refuted` — Any interleaving of client requests and transfer results. _refuted theorems: a short 206 response is not retried (success header without data, then abort); the Content-Range of a read response is not checked. The abort theorem lists all causes.
* C42: `C42_type_from_filename_refuted` — _refuted theorem: a file whose whole name is the extension (".tar") is not recognised by the patterns.
* C43: `C43_pre_install_refuted` — _refuted theorem: the pre-install handler of system.conf already runs before the compatible and version checks. An install-check hook replaces the compatible check (as documented).
* C44: `C44_collision_refuted`
* C46: `C46_efi_bootnext_refuted`, `C46_child_only_refuted`, `C46_root_only_refuted` — Generic theorem for every boot loader with the stated laws, plus the laws for U-Boot, GRUB, barebox and EFI with BootOrder. C46_efi_bootnext_refuted: with BootNext (the default) a second installation interrupted while writing leaves the firmware booting the torn slot. The _refuted theorems show that the conditions on the bundle are needed.
* C47: `C47_jffs2_refuted` — _refuted theorem: the documented slot type jffs2 is always refused.
* C48: `C48_junk_refuted` — _refuted theorem: junk such as banana, 10 MiB (=10) or overflowing values is accepted.
* C49: `C49_stale_size_refuted` — curl is an oracle (headers, chunks, code, own error). _refuted theorem: the size announced by a failed attempt is used if the successful response has none.
* C50: `C50_operation_refuted`, `C50_auto_operation_refuted`, `C50_auto_abort_refuted` — Any schedule. _refuted theorems: a refused InstallBundle sets the Operation property to idle and stops the progress reports while the first installation goes on; an automatic installation never sets it; autoinstall while busy aborts the service.
* C51: `C51_order_refuted`, `C51_substring_refuted`, `C51_root_suffix_refuted`, `C51_efi_abort_refuted` — regular expression search, strstr and the order of the sources modelled literally; r_realpath, the output of efibootmgr and of the custom backend are inputs. Findings: the manual lists rauc.slot= before rauc.external, the code evaluates them the other way round; all parameters are searched for as substrings (a parameter containing rauc.external, or one whose name ends in root=, makes the booted slot an installation target); a missing EFI BootCurrent dereferences NULL.
* C52: `C52_room_refuted`, `C52_read_refuted`, `C52_short_tail_refuted`, `C52_plaintext_refuted` — AES-CBC is a parameter (length-preserving, decryption inverts encryption). Findings: fwrite/fclose results are ignored and an fread error counts as the end of the file, so a full file system or a read error at a sector boundary yields a truncated payload with success; the decrypted bundle is written to tmpdir+'decrypted.raucb' without a '/', so it is not removed with tmpdir: every extraction leaves the plain text behind; a rest shorter than a sector after the payload makes decryption fail in spite of the limit (does not occur with a hash tree).
* C53: `C53_short_file_refuted` — curl is an oracle that is honest about success; free space is needed for C53_success. Finding (C53_short_file_refuted): the results of fflush and fclose are ignored, so on a full file system the last buffer can be lost although the download reports success (the bundle's signature check catches this later).
* C55: `C55_empty_refuted`, `C55_artifact_variant_refuted` — Finding (C55_artifact_variant_refuted): a bundle with variants of an artifact passes all checks and the images of all variants are installed into the repository. Device tree property and files as C strings (up to the first NUL). Finding (C55_empty_refuted): a handler printing 'RAUC_SYSTEM_VARIANT=' replaces the configured variant by the empty string. The handler's stderr is parsed as well as its stdout.
* C56: `C56_append_refuted` — OpenSSL is a parameter: d2i_CMS_bio, X509_verify_cert and the signature arithmetic; 'honest'/'complete' in SignatureSpec.v say what is assumed of X509_verify_cert, CMS_verify is modelled on top (every signer needs a chain and a right signature). Finding (C56_append_refuted): 'rauc resign --append' adds a second signer, but cms_get_cert_chain refuses every signature with more than one signer, so such a bundle is refused by every device, whatever its keyring. An empty plain payload (size 0) is treated as refused (the code would check the whole file). C56_verify_bytes/_accepts and C56_append_keeps describe cms_verify_bytes itself, which does allow several signers.
* C57: `C57_double_free_refuted`, `C57_extract_partial_refuted`, `C57_shared_removed_refuted` — The input is assumed not to change between check and copy; removing the partial output is assumed to succeed. Findings: C57_double_free_refuted - replace-signature with --signing-keyring and no configured keyring leaves the configuration pointing to the signing keyring string, which r_context_clean then frees twice; C57_extract_partial_refuted - extract-signature leaves a truncated file behind when writing fails; C57_shared_removed_refuted - a file another program creates at the output path after the existence check is not overwritten, but it is removed on the error path.
* C59: `C59_vfat_label_unique_refuted`, `C59_pre_hook_unmounted_refuted`, `C59_emmc_environment_refuted` — Findings: C59_emmc_environment_refuted - hooks of boot-emmc slots get an empty RAUC_SLOT_BOOTNAME and RAUC_SLOT_PARENT and the resolved device instead of device=; C59_pre_hook_unmounted_refuted - the pre-install hook of an archive for an ext4 or vfat slot runs with the slot unmounted, contrary to the documentation; C59_vfat_label_unique_refuted - bootloader.0 and bootloader.1 get the same label BOOTLOADER_.
* C60: `C60_complete_check_refuted` — The general statement of the documentation is refuted for the page cache (C60_complete_check_refuted); the exact condition under which bundles pass is proved.
* C61: `C61_every_failure_has_an_error_refuted` — The claim that every failure has an error is refuted for a manifest whose verity-size equals the bundle size (C61_every_failure_has_an_error_refuted); C61_failure_without_error shows that this is the only case.
* C62: `C62_success_without_bundle_refuted`, `C62_workdir_removal_refuted`, `C62_never_aborts_refuted`, `C62_confined_refuted`, `C62_image_present_refuted`, `C62_shared_file_refuted` — Refuted parts: success can be reported (with an error set) although no bundle exists, when the fakeroot environment cannot be set up or the working directory cannot be removed (C62_success_without_bundle_refuted, C62_workdir_removal_refuted; C62_odd_success shows these are the only cases); a manifest with verity-*/crypt-key fields aborts the process and leaves output and working directory (C62_never_aborts_refuted, C62_abort_only); a symbolic link ".." pulls files from beside the content directory into the bundle (C62_confined_refuted; C62_confined_without_dotdot); "convert=" without methods or two images sharing a file lose the image (C62_image_present_refuted, C62_shared_file_refuted).
* C63: `C63_nothing_left_refuted`, `C63_removes_inside_refuted`, `C63_shared_refuted`, `C63_converted_refuted` — Findings (refuted): temp directories of converted archives are never removed; file names with ../ in the inner manifest lead to g_remove outside the temporary directory before the manifest check fails; convert=keep images lose the kept file; bundles in which two images share a file cannot be converted. The tree effects of names with a slash are not followed (the calls are in the log).
* C64: `C64_meta_refuted`, `C64_primary_refuted`, `C64_blank_refuted`, `C64_count_refuted` — A shell evaluator written from the POSIX description is run on the modelled output text: the text evaluates for every input, and the value of every variable is proved (info: head, images, meta; status: head, slots, details, repositories, artifacts, instances; nothing for numbers out of range). End to end: service slots -> D-Bus dictionaries -> client slots -> text -> variables, for every hash table order. Refuted: two meta keys can share a variable (a/b-c and a-b/c); an unknown primary slot is shown as "(null)", not empty; a blank in a slot name breaks the correspondence between RAUC_SYSTEM_SLOTS and the numbers; a counter without time stamp is lost between service and client. rauc status aborts if a slot state is unknown. Not modelled: character set conversion by g_print.
* C65: `C65_variant_refuted`, `C65_bootname_refuted`, `C65_meta_shadowed_refuted`, `C65_words_dropped_refuted`, `C65_silent_reject_refuted` — The environment is the list of strings given to execve, built with GLib's semantics for setenv (replace in place, overwrite flag); its value for every name is determined completely. Composed with the model of target selection (C01) and of the system-info handler (C55). Refuted: RAUC_IMAGE_NAME_n names the first image of the class even if another variant is installed; RAUC_CURRENT_BOOTNAME may be a device path although the slot has a bootname; an inherited RAUC_META_ variable replaces the bundle's; only the first word of a handler/bootloader/image status is shown; a hook that rejects without a message is not reported as a rejection. g_shell_parse_argv is a parameter (its behaviour for quoted words is in C63).
* C66: `C66_current_blank_refuted` — The backend is an arbitrary function of its own state and arguments. Refuted: for get-current only the newline is removed, so a bootname followed by a blank or carriage return is accepted for get-primary but does not match any slot as booted slot. Not modelled: environment and error texts; the boot loaders with text tools are C08-C13.
* C67: `C67_empty_label_refuted`, `C67_newline_label_refuted` — The tool is an arbitrary function of its state and arguments with the stated relation to the boot variables; the record of assumptions is met by an example tool. Refuted: an entry with an empty label shown without device path is not seen and is dropped from BootOrder when rauc sets the primary; a label with a newline is read as further lines. Simplified: the regular expressions are written as functions on lines; only the newline ends a line; UTF-8 validation of the output is not modelled.
* C68: `C68_unsynced_refuted`, `C68_repair_refuted` — Disk model: after syncfs the visible state; since then each item independently any state it went through; fsync of the repository directory makes its entries durable, not objects. Artifact = (name, digest); temporary links are in C40. C68_unsynced_refuted and C68_repair_refuted show what is not guaranteed.
* C69: `C69_early_refuted`, `C69_late_refuted`, `C69_path_refuted` — Events of one client are dispatched in order, in batches of any size. g_filename_from_uri and file tests are arbitrary functions. C69_early_refuted, C69_late_refuted and C69_path_refuted show what is not guaranteed.
* C70: `C70_uptime_refuted`, `C70_redirect_refuted` — libcurl is trusted to do what its options say; curl_getdate is an arbitrary function. C70_uptime_refuted and C70_redirect_refuted show what is not guaranteed.
* C71: `C71_dot_refuted`, `C71_sibling_refuted`, `C71_write_slot_refuted` — GOption's parsing is trusted; the operations succeed or fail as an arbitrary oracle says (they are the subject of other properties). C71_dot_refuted, C71_sibling_refuted and C71_write_slot_refuted show what is not guaranteed.
* C72: `C72_two_active_refuted` — Events as passed to the logging function; what happens to them is C25. Nothing else changes the system section of the status file. C72_two_active_refuted shows what is not guaranteed.
* C73: `C73_empty_refuted` — The image file is constant (verified mount); sum_size * 100 does not overflow (images below 92 PB). C73_empty_refuted shows the crash.
* C74: `C74_line_breaks_forge_entries_refuted` — C74_line_breaks_forge_entries_refuted: with a line break in a bundle version two different event sequences give the same log text. The steps of the installation are opaque outcomes here (they are modelled in other files); JSON formats are left to json-glib.
* C77: `C77_fifo_refuted`, `C77_device_refuted` — nftw(3) is modelled after glibc (FTW_DEPTH|FTW_MOUNT|FTW_PHYS). The walk is atomic: nobody else changes the tree meanwhile; paths leading to the tree are assumed free of links (the example C77_example_via_link shows why).
* C78: `C78_resign_refuted` — CMS_encrypt/CMS_decrypt are parameters with the laws honest_box (sealed data is enveloped, recipients open it, others do not get the content). Secrecy of the cipher itself is not modelled, only which data goes where. PKCS#11 loading of keys is an outcome.
* C79: `C79_alias_refuted`, `C79_shared_refuted`, `C79_unrelated_refuted` — Mounts made between the check and the write are not seen (the kernel refuses O_EXCL opens of mounted block devices, which is not modelled). \d of the regular expression is taken as ASCII digits.
* C81: `C81_dead_server_refuted`, `C81_no_leak_refuted`, `C81_no_hang_refuted`, `C81_group_zero_refuted` — Descriptor numbers are never reused in the model; the dm devices on top are C61, requests and replies C33, C34 and C70.
* C83: `C83_printed_refuted` — The property code generated by gdbus-codegen is modelled from its generator; which requests are refused is C50, the client's exit code C69.
* C84: `C84_info_json_with_dumps_refuted` — json-glib's generator is a parameter: assumed is that its text is JSON for the tree, has no line breaks when compact, and that objects begin and end with a brace (C84_a_generator_as_assumed shows such a generator). The JSON reader is an independent specification.
* C85: `C85_empty_at_zero_refuted`, `C85_fits_narrow_terminal_refuted` — The escape sequences around the two terminal lines are left out.
* C86: `C86_every_type_fits_refuted` — What tar, cp and the composefs installation (C68) make of their source is a parameter; what bundle creation puts into the bundle is the specification of C62's conversions.
* C87: `C87_each_slot_once_always_refuted` — The output is a list of lines; line breaks inside configured values are not split. Parents are top-level slots (C29).

