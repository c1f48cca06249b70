From Coq Require Import Permutation.
From Verif Require Import Base BaseLemmas KeyFile KeyFileLemmas Config ConfigSpec ConfigParents ConfigRead ConfigProofs ConfigLoad ConfigFinal.

Lemma horner_app b a s t : all_chars (is_digit b) s = true -> horner b a (s ++ t) = horner b (horner b a s) t.
Proof.
  revert a. induction s as [|c s IH]; intros a H; [reflexivity|]. cbn [all_chars] in H. apply andb_prop in H as [H1 H2].
  cbn [String.append horner]. unfold is_digit in H1. destruct (digit_val c) as [d|]; [|discriminate]. rewrite H1. now apply IH.
Qed.
Lemma after_digits_app s t : all_chars (is_digit 10) s = true -> after_digits (s ++ t) = after_digits t.
Proof.
  induction s as [|c s IH]; intros H; [reflexivity|]. cbn [all_chars] in H. apply andb_prop in H as [H1 H2].
  cbn [String.append after_digits]. unfold is_digit in H1. destruct (digit_val c) as [d|]; [|discriminate]. rewrite H1. now apply IH.
Qed.

Lemma suffix_facts sfx i : In (sfx, i) size_suffixes -> suffix_shift (after_digits sfx) = (10 * i)%N /\ (forall a, horner 10 a sfx = a).
Proof.
  intros H. cbn in H. repeat (destruct H as [H|H]; [injection H as <- <-; split; [reflexivity|intros a; reflexivity]|]). destruct H.
Qed.

Lemma digit_first s : all_chars (is_digit 10) s = true -> s <> "" -> exists c r, s = String c r /\ strtol_space c = false /\ Ascii.eqb c "-" = false /\ Ascii.eqb c "+" = false.
Proof.
  intros H N. destruct s as [|c r]; [contradiction|]. exists c, r. split; [reflexivity|]. cbn [all_chars] in H. apply andb_prop in H as [H _].
  destruct (is_digit_not_special 10 c H) as (A & B & C & _). auto.
Qed.

Lemma c48_sizes_ok : forall n sfx i, In (sfx, i) size_suffixes -> (n * 1024 ^ i < 2 ^ 64)%N ->
  binary_suffixed (print_num 10 n ++ sfx) = (n * 1024 ^ i)%N.
Proof.
  intros n sfx i HS HB. destruct (suffix_facts _ _ HS) as (S1 & S2).
  pose proof (print_num_chars 10 n ltac:(lia)) as C. destruct (digit_first _ C (print_num_nonempty 10 n)) as (c & r & E & W & M1 & M2).
  assert (SP : skip_space (print_num 10 n ++ sfx) = (print_num 10 n ++ sfx)%string). { rewrite E. cbn [String.append skip_space]. now rewrite W. }
  assert (V : g_ascii_strtoull 10 (print_num 10 n ++ sfx) = n).
  { unfold g_ascii_strtoull. rewrite SP.
    assert (X : (match (print_num 10 n ++ sfx)%string with
           | "" => (false, print_num 10 n ++ sfx)
           | String c0 r0 => if Ascii.eqb c0 "-" then (true, r0) else if Ascii.eqb c0 "+" then (false, r0) else (false, print_num 10 n ++ sfx)
           end)%string = (false, print_num 10 n ++ sfx)%string).
    { rewrite E. cbn [String.append]. now rewrite M1, M2. }
    rewrite X. clear X.
    assert (Y : forall s, (match s with String c0 (String x r0) => if (10 =? 16)%N && Ascii.eqb c0 "0" && is_x x then r0 else s | _ => s end) = s) by (intros [|? [|? ?]]; reflexivity).
    rewrite Y. rewrite (horner_app 10 0 (print_num 10 n) sfx C), horner_print by lia. rewrite S2.
    assert (n < 2 ^ 64)%N by (assert (0 < 1024 ^ i)%N by (apply N.neq_0_lt_0; apply N.pow_nonzero; lia); nia).
    destruct (N.ltb_spec ullong_max n) as [K|K]; [|reflexivity]. unfold ullong_max in K. lia. }
  unfold binary_suffixed. rewrite V. destruct (N.eqb_spec n 0) as [->|N0]; [lia|].
  rewrite SP. assert (X : (match (print_num 10 n ++ sfx)%string with
        | "" => (print_num 10 n ++ sfx)
        | String c0 r0 => if Ascii.eqb c0 "-" || Ascii.eqb c0 "+" then r0 else (print_num 10 n ++ sfx) end)%string = (print_num 10 n ++ sfx)%string).
  { rewrite E. cbn [String.append]. now rewrite M1, M2. }
  rewrite X. rewrite after_digits_app by exact C. rewrite S1, N.shiftl_mul_pow2.
  assert (P : (2 ^ (10 * i) = 1024 ^ i)%N) by (rewrite N.pow_mul_r; reflexivity). rewrite P. apply N.mod_small. exact HB.
Qed.

Lemma c48_slot_ok : forall o1 o2 o3 kf c s, NoDup (kf_groups kf) -> load_config o1 o2 o3 kf = Ok c -> In s (f_slots c) ->
  let g := ("slot." ++ c_name s)%string in
  (In (c_type s) ["boot-mbr-switch"; "boot-gpt-switch"; "boot-raw-fallback"] ->
     file_string kf g "region-start" <> None /\ file_string kf g "region-size" <> None) /\
  (forall n sfx i, In (sfx, i) size_suffixes -> (n * 1024 ^ i < 2 ^ 64)%N ->
     (In (c_type s) ["boot-mbr-switch"; "boot-gpt-switch"; "boot-raw-fallback"] ->
        file_string kf g "region-start" = Some (print_num 10 n ++ sfx)%string -> c_region_start s = (n * 1024 ^ i)%N) /\
     (In (c_type s) ["boot-mbr-switch"; "boot-gpt-switch"; "boot-raw-fallback"] ->
        file_string kf g "region-size" = Some (print_num 10 n ++ sfx)%string -> c_region_size s = (n * 1024 ^ i)%N) /\
     (c_type s = "boot-emmc" ->
        file_string kf g "size-limit" = Some (print_num 10 n ++ sfx)%string -> c_size_limit s = (n * 1024 ^ i)%N)).
Proof.
  intros o1 o2 o3 kf c s ND HL Hs g. apply load_inv in HL as (kf' & E & _). destruct (parse_config_inv _ _ _ _ _ ND E) as (CS & _).
  unfold g. destruct (slot_of _ _ _ _ CS Hs eq_refl) as (l & HG & cl & ix & _ & SS). rewrite <- !(v_str_file _ _ _ _ HG).
  destruct SS as (_ & _ & _ & _ & _ & _ & _ & _ & _ & _ & _ & _ & RG & SL & _).
  split.
  - intros T. apply mem_in in T. destruct (RG T) as (a & b & -> & -> & _). split; discriminate.
  - intros n sfx i HS HB. split; [|split].
    + intros T F. apply mem_in in T. destruct (RG T) as (a & b & A & _ & -> & _). rewrite F in A. injection A as <-. now apply c48_sizes_ok.
    + intros T F. apply mem_in in T. destruct (RG T) as (a & b & _ & A & _ & ->). rewrite F in A. injection A as <-. now apply c48_sizes_ok.
    + intros T F. rewrite (SL T), F. now apply c48_sizes_ok.
Qed.

(** values which are not sizes are accepted *)
Lemma c48_junk_refuted :
  binary_suffixed "banana" = 0%N /\ binary_suffixed "10 MiB" = 10%N /\ binary_suffixed "1.5G" = 1%N /\ binary_suffixed "16777216T" = 0%N /\
  binary_suffixed "-1" = (2 ^ 64 - 1)%N.
Proof. vm_compute. auto. Qed.

(** ** a chain of 103 slots *)
Definition chain_slot (i : nat) : string * group :=
  (("slot.a." ++ print_num 10 (N.of_nat i))%string,
   ("device", ("/dev/sd" ++ print_num 10 (N.of_nat i))%string) ::
   match i with O => [] | S j => [("parent", ("a." ++ print_num 10 (N.of_nat j))%string)] end).
Definition chain_file : keyfile := ("system", [("compatible", "x"); ("bootloader", "noop")]) :: map chain_slot (seq 0 103).
Definition is_ok {A} (r : res A) : bool := match r with Ok _ => true | _ => false end.
Lemma chain_id : is_ok (load_config (fun l => l) (fun l => l) (fun l => l) chain_file) = true.
Proof. vm_compute. reflexivity. Qed.
Lemma chain_rev : is_ok (load_config (fun l => l) (@rev cslot) (fun l => l) chain_file) = false.
Proof. vm_compute. reflexivity. Qed.
Fixpoint nodupb (l : list string) : bool := match l with [] => true | x :: r => negb (mem r x) && nodupb r end.
Lemma nodupb_ok l : nodupb l = true -> NoDup l.
Proof.
  induction l as [|x r IH]; intros H; [constructor|]. cbn in H. apply andb_prop in H as [H1 H2]. constructor; [|auto].
  intros K. apply mem_in in K. rewrite K in H1. discriminate.
Qed.
Lemma c29_order_refuted : exists kf o2, NoDup (kf_groups kf) /\ (forall l, Permutation (o2 l) l) /\
  (exists c, load_config (fun l => l) (fun l => l) (fun l => l) kf = Ok c) /\
  (forall c, load_config (fun l => l) o2 (fun l => l) kf <> Ok c).
Proof.
  exists chain_file, (@rev cslot). split; [apply nodupb_ok; vm_compute; reflexivity|]. split; [intros l; symmetry; apply Permutation_rev|]. split.
  - pose proof chain_id as H. destruct (load_config _ _ _ _) as [c| |]; try discriminate. eauto.
  - intros c H. pose proof chain_rev as K. rewrite H in K. discriminate.
Qed.

(** an empty value is treated as if the key were absent *)
Definition empty_parent_file : keyfile :=
  [("system", [("compatible", "x"); ("bootloader", "noop")]);
   ("slot.rootfs.0", [("device", "/dev/a"); ("bootname", "A")]);
   ("slot.app.0", [("device", "/dev/b"); ("parent", "")])].
Lemma c29_empty_refuted : exists kf c, kf_get kf "slot.app.0" "parent" = Some "" /\
  load_config (fun l => l) (fun l => l) (fun l => l) kf = Ok c /\ f_parent c "app.0" = None.
Proof.
  exists empty_parent_file. destruct (load_config (fun l => l) (fun l => l) (fun l => l) empty_parent_file) as [c| |] eqn:E; vm_compute in E; try discriminate.
  exists c. split; [reflexivity|]. split; [reflexivity|]. apply Ok_inj in E. subst c. reflexivity.
Qed.

(** ** examples *)
Definition example_file : keyfile :=
  [("system", [("compatible", "FooCorp Super BarBazzer"); ("bootloader", "barebox"); ("bundle-formats", "-plain"); ("data-directory", "/data/rauc")]);
   ("keyring", [("path", "/etc/rauc/keyring.pem"); ("check-crl", "true")]);
   ("log.events", [("filename", "/var/log/rauc"); ("max-files", "5")]);
   ("artifacts.add-ons", [("path", "/data/add-ons"); ("type", "trees")]);
   ("slot.rootfs.0", [("device", "/dev/sda0"); ("type", "ext4"); ("bootname", "system0")]);
   ("slot.rootfs.1", [("device", "/dev/sda1"); ("type", "ext4"); ("bootname", "system1"); ("readonly", "false")]);
   ("slot.appfs.0", [("device", "/dev/sda2"); ("parent", "rootfs.0")]);
   ("slot.plugin.0", [("device", "/dev/sda4"); ("parent", "appfs.0"); ("install-same", "false")]);
   ("slot.boot.0", [("device", "/dev/sda"); ("type", "boot-mbr-switch"); ("region-start", "1M"); ("region-size", "64m")])].
Lemma example_loads : exists c, load_config (@rev cslot) (@rev cslot) (fun l => l) example_file = Ok c /\
  f_parent c "plugin.0" = Some "rootfs.0" /\ y_formats (f_system c) = 6%N /\ y_statusfile (f_system c) = "/data/rauc/central.raucs" /\
  map c_region_size (f_slots c) = [0; 0; 0; 0; 67108864]%N.
Proof.
  destruct (load_config (@rev cslot) (@rev cslot) (fun l => l) example_file) as [c| |] eqn:E; vm_compute in E; try discriminate.
  exists c. apply Ok_inj in E. subst c. repeat split.
Qed.
