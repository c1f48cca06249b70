(** Property theorems for the system configuration (C29, C30, C31, C47, C48).
    A key file is a list of groups with different names; the orders of the hash tables are
    arbitrary permutations. *)
From Coq Require Import Permutation.
From Verif Require Import Base KeyFile Config ConfigSpec ConfigFormats ConfigParents ConfigFinal ConfigSize.

(** parents *)
Theorem C29_roots : forall o1 o2 o3 kf c, NoDup (kf_groups kf) ->
  (forall l, Permutation (o1 l) l) -> (forall l, Permutation (o2 l) l) -> load_config o1 o2 o3 kf = Ok c ->
  forall child, In ("slot." ++ child)%string (kf_groups kf) ->
    ((forall p, ~ file_parent kf child p) -> f_parent c child = None) /\
    (forall p, file_parent kf child p ->
       file_string kf ("slot." ++ child) "bootname" = None /\
       exists root, f_parent c child = Some root /\ file_ancestor kf child root /\
         In ("slot." ++ root)%string (kf_groups kf) /\ (forall q, ~ file_parent kf root q) /\ f_parent c root = None).
Proof. exact c29_roots_ok. Qed.
Print Assumptions C29_roots.
Theorem C29_cycle_rejected : forall o1 o2 o3 kf c x, NoDup (kf_groups kf) ->
  (forall l, Permutation (o1 l) l) -> (forall l, Permutation (o2 l) l) -> file_ancestor kf x x -> load_config o1 o2 o3 kf <> Ok c.
Proof. exact c29_cycle_ok. Qed.
Print Assumptions C29_cycle_rejected.
Theorem C29_missing_parent_rejected : forall o1 o2 o3 kf c child parent, NoDup (kf_groups kf) ->
  (forall l, Permutation (o1 l) l) -> (forall l, Permutation (o2 l) l) ->
  file_parent kf child parent -> ~ In ("slot." ++ parent)%string (kf_groups kf) \/ file_string kf ("slot." ++ child) "bootname" <> None ->
  load_config o1 o2 o3 kf <> Ok c.
Proof. exact c29_missing_ok. Qed.
Print Assumptions C29_missing_parent_rejected.
Theorem C29_accepted : forall slots o1 o2, NoDup (map c_name slots) -> Permutation o1 slots ->
  (forall s q, In s slots -> c_parent_name s = Some q -> In q (map c_name slots) /\ c_bootname s = None) ->
  (forall x, ~ clos_trans string (fun a b => exists s, In s slots /\ c_name s = a /\ c_parent_name s = Some b) x x) ->
  (List.length slots <= 102)%nat ->
  exists par, resolve_parents slots o1 o2 = Ok par.
Proof. exact c29_accept_ok. Qed.
Print Assumptions C29_accepted.
Theorem C29_order_independent : forall o1 o2 o3 o1' o2' o3' kf c, NoDup (kf_groups kf) ->
  (forall l, Permutation (o1 l) l) -> (forall l, Permutation (o2 l) l) -> (forall l, Permutation (o3 l) l) ->
  (forall l, Permutation (o1' l) l) -> (forall l, Permutation (o2' l) l) -> (forall l, Permutation (o3' l) l) ->
  (forall a n b, parent_chain kf n a b -> (n <= 101)%nat) ->
  load_config o1 o2 o3 kf = Ok c ->
  exists p, load_config o1' o2' o3' kf = Ok (mkConfig (f_system c) (f_keyring c) (f_polling c) (f_handlers c) (f_loggers c) (f_slots c) p (f_repos c)) /\
    (forall s, In s (f_slots c) -> p (c_name s) = f_parent c (c_name s)).
Proof. exact c29_order_ok. Qed.
Print Assumptions C29_order_independent.
Theorem C29_order_refuted : exists kf o2, NoDup (kf_groups kf) /\ (forall l, Permutation (o2 l) l) /\
  (exists c, load_config (fun l => l) (fun l => l) (fun l => l) kf = Ok c) /\
  (forall c, load_config (fun l => l) o2 (fun l => l) kf <> Ok c).
Proof. exact c29_order_refuted. Qed.
Print Assumptions C29_order_refuted.
Theorem C29_empty_refuted : exists kf c, kf_get kf "slot.app.0" "parent" = Some "" /\
  load_config (fun l => l) (fun l => l) (fun l => l) kf = Ok c /\ f_parent c "app.0" = None.
Proof. exact c29_empty_refuted. Qed.
Print Assumptions C29_empty_refuted.

(** bundle formats *)
Theorem C30_formats : forall mask value result,
  parse_bundle_formats mask value = Ok result <->
  result <> 0%N /\
  exists toks, Forall2 is_ftoken (words value) toks /\
    ((toks <> [] /\ Forall is_fset toks /\ forall f, N.testbit result f = true <-> In (FSet f) toks) \/
     (Forall (fun t => ~ is_fset t) toks /\ forall f, N.testbit result f = modified toks f (N.testbit mask f))).
Proof. exact c30_ok. Qed.
Print Assumptions C30_formats.
Theorem C30_loaded : forall o1 o2 o3 kf c, NoDup (kf_groups kf) -> load_config o1 o2 o3 kf = Ok c ->
  match file_string kf "system" "bundle-formats" with
  | None => forall f, N.testbit (y_formats (f_system c)) f = true <-> (f < 3)%N
  | Some value =>
      y_formats (f_system c) <> 0%N /\
      exists toks, Forall2 is_ftoken (words value) toks /\
        ((toks <> [] /\ Forall is_fset toks /\ forall f, N.testbit (y_formats (f_system c)) f = true <-> In (FSet f) toks) \/
         (Forall (fun t => ~ is_fset t) toks /\ forall f, N.testbit (y_formats (f_system c)) f = modified toks f (f <? 3)%N))
  end.
Proof. exact c30_load_ok. Qed.
Print Assumptions C30_loaded.

(** boot names *)
Theorem C31_unique : forall o1 o2 o3 kf c, NoDup (kf_groups kf) -> (forall l, Permutation (o3 l) l) ->
  load_config o1 o2 o3 kf = Ok c -> forall a b name,
  file_string kf ("slot." ++ a) "bootname" = Some name -> file_string kf ("slot." ++ b) "bootname" = Some name -> a = b.
Proof. exact c31_ok. Qed.
Print Assumptions C31_unique.
Theorem C31_check : forall slots order, NoDup (map c_name slots) -> Permutation order slots ->
  check_bootnames order [] = true <->
  (forall s t b, In s slots -> In t slots -> c_bootname s = Some b -> c_bootname t = Some b -> c_name s = c_name t).
Proof. exact c31_check_ok. Qed.
Print Assumptions C31_check.

(** only known options; values are those of the file *)
Theorem C47_known_options : forall o1 o2 o3 kf c, NoDup (kf_groups kf) -> load_config o1 o2 o3 kf = Ok c ->
  forall g, In g (kf_groups kf) -> exists keys, known_group kf g keys /\ forall k, In k (kf_keys kf g) -> In k keys.
Proof. exact c47_known_ok. Qed.
Print Assumptions C47_known_options.
Theorem C47_slots : forall o1 o2 o3 kf c, NoDup (kf_groups kf) -> load_config o1 o2 o3 kf = Ok c ->
  NoDup (map c_name (f_slots c)) /\
  (forall n, In n (map c_name (f_slots c)) <-> In ("slot." ++ n)%string (kf_groups kf)) /\
  (forall s, In s (f_slots c) -> let g := ("slot." ++ c_name s)%string in
     (exists idx, c_name s = (c_class s ++ "." ++ idx)%string /\ no_char "." (c_class s) = true /\ no_char "." idx = true) /\
     file_string kf g "device" = Some (c_device s) /\
     c_type s = (match file_string kf g "type" with Some t => t | None => "raw" end) /\
     c_bootname s = file_string kf g "bootname" /\
     c_allow_mounted s = file_bool kf g "allow-mounted" false /\
     c_readonly s = file_bool kf g "readonly" false /\
     c_resize s = file_bool kf g "resize" false /\
     c_install_same s = file_bool kf g "install-same" (file_bool kf g "force-install-same" (file_bool kf g "ignore-checksum" true))).
Proof. exact c47_slots_ok. Qed.
Print Assumptions C47_slots.
Theorem C47_system : forall o1 o2 o3 kf c, NoDup (kf_groups kf) -> load_config o1 o2 o3 kf = Ok c ->
  let y := f_system c in
  (exists v, y_compatible y = Some v /\ file_string kf "system" "compatible" = Some v) /\
  (exists b, y_bootloader y = Some b /\ file_string kf "system" "bootloader" = Some b /\ In b ["barebox"; "grub"; "uboot"; "efi"; "custom"; "noop"] /\
     ((0 < y_boot_attempts y \/ 0 < y_boot_attempts_primary y)%Z -> b = "uboot" \/ b = "barebox")) /\
  (0 <= y_boot_attempts y)%Z /\ (0 <= y_boot_attempts_primary y)%Z /\
  y_max_signature y <> 0%N /\
  y_statusfile y = (match file_string kf "system" "statusfile", file_string kf "system" "data-directory" with
                    | Some s, _ => s
                    | None, Some d => (d ++ "/central.raucs")%string
                    | None, None => "per-slot"
                    end) /\
  (y_statusfile y = "per-slot" -> file_string kf "system" "data-directory" = None) /\
  y_activate_installed y = file_bool kf "system" "activate-installed" true /\
  y_prevent_late_fallback y = file_bool kf "system" "prevent-late-fallback" false /\
  (match file_bool kf "system" "variant-dtb" false, file_string kf "system" "variant-file", file_string kf "system" "variant-name" with
   | true, None, None => y_variant y = VarDtb
   | false, Some f, None => y_variant y = VarFile f
   | false, None, Some n => y_variant y = VarName n
   | false, None, None => y_variant y = VarNone
   | _, _, _ => False
   end) /\
  (forall lg, In lg (f_loggers c) -> (1 <= g_maxfiles lg <= 1000)%Z).
Proof. exact c47_system_ok. Qed.
Print Assumptions C47_system.
Theorem C47_jffs2_refuted : forall o1 o2 o3 kf c n, NoDup (kf_groups kf) ->
  file_string kf ("slot." ++ n) "type" = Some "jffs2" -> load_config o1 o2 o3 kf <> Ok c.
Proof. exact c47_jffs2_refuted. Qed.
Print Assumptions C47_jffs2_refuted.

(** sizes *)
Theorem C48_sizes : forall n sfx i, In (sfx, i) size_suffixes -> (n * 1024 ^ i < 2 ^ 64)%N ->
  binary_suffixed (print_num 10 n ++ sfx) = (n * 1024 ^ i)%N.
Proof. exact c48_sizes_ok. Qed.
Print Assumptions C48_sizes.
Theorem C48_regions : forall o1 o2 o3 kf c s, NoDup (kf_groups kf) -> load_config o1 o2 o3 kf = Ok c -> In s (f_slots c) ->
  let g := ("slot." ++ c_name s)%string in
  (In (c_type s) ["boot-mbr-switch"; "boot-gpt-switch"; "boot-raw-fallback"] ->
     file_string kf g "region-start" <> None /\ file_string kf g "region-size" <> None) /\
  (forall n sfx i, In (sfx, i) size_suffixes -> (n * 1024 ^ i < 2 ^ 64)%N ->
     (In (c_type s) ["boot-mbr-switch"; "boot-gpt-switch"; "boot-raw-fallback"] ->
        file_string kf g "region-start" = Some (print_num 10 n ++ sfx)%string -> c_region_start s = (n * 1024 ^ i)%N) /\
     (In (c_type s) ["boot-mbr-switch"; "boot-gpt-switch"; "boot-raw-fallback"] ->
        file_string kf g "region-size" = Some (print_num 10 n ++ sfx)%string -> c_region_size s = (n * 1024 ^ i)%N) /\
     (c_type s = "boot-emmc" ->
        file_string kf g "size-limit" = Some (print_num 10 n ++ sfx)%string -> c_size_limit s = (n * 1024 ^ i)%N)).
Proof. exact c48_slot_ok. Qed.
Print Assumptions C48_regions.
Theorem C48_junk_refuted :
  binary_suffixed "banana" = 0%N /\ binary_suffixed "10 MiB" = 10%N /\ binary_suffixed "1.5G" = 1%N /\ binary_suffixed "16777216T" = 0%N /\
  binary_suffixed "-1" = (2 ^ 64 - 1)%N.
Proof. exact c48_junk_refuted. Qed.
Print Assumptions C48_junk_refuted.

(** non-vacuity *)
Example ex_config : exists c, load_config (@rev cslot) (@rev cslot) (fun l => l) example_file = Ok c /\
  f_parent c "plugin.0" = Some "rootfs.0" /\ y_formats (f_system c) = 6%N /\ y_statusfile (f_system c) = "/data/rauc/central.raucs" /\
  map c_region_size (f_slots c) = [0; 0; 0; 0; 67108864]%N.
Proof. exact example_loads. Qed.
Example ex_config_nodup : NoDup (kf_groups example_file).
Proof. apply nodupb_ok. reflexivity. Qed.
Example ex_config_parent : file_parent example_file "plugin.0" "appfs.0" /\ file_parent example_file "appfs.0" "rootfs.0".
Proof. split; reflexivity. Qed.
Definition typo (g k v : string) : keyfile := kf_set example_file g k v.
Example ex_config_typo : map (fun kf => is_ok (load_config (fun l => l) (fun l => l) (fun l => l) kf))
   [example_file; typo "system" "compatibel" "x"; typo "slot.rootfs.0" "Device" "x"; typo "slots.rootfs.2" "device" "x"; typo "slot.rootfs.2" "device" "x";
    typo "slot.rootfs.1" "bootname" "system0"; typo "slot.appfs.0" "parent" "plugin.0"; typo "slot.appfs.0" "parent" "nope.0"; typo "slot.appfs.0" "bootname" "x";
    typo "system" "bundle-formats" "-plain -verity -crypt"; typo "system" "bundle-formats" "plain +crypt"; typo "system" "bundle-formats" "plain crypt"] =
   [true; false; false; false; true; false; false; false; false; false; false; true].
Proof. vm_compute. reflexivity. Qed.
