From Coq Require Import Permutation.
From Verif Require Import Base BaseLemmas Slot Image Manifest KeyFile StatusFile EnvKey EnvKeyProofs ShellWords ShellOut ShellOutSpec ShellOutProofs ShellOutInfo ShellOutStatus ShellOutDbus ShellOutE2E.

Definition x_iso : iso string := mkIso (fun t => t) Some.
Definition x_stat : rstat string := mkRstat (Some "acme") (Some "1.0") (Some "it's $HOME; rm -rf") None (Some "ab12") (Some "ok") (Some "00ff") 4096 (Some "txn")
  (Some "2026-11-18T10:00:00Z") 3 None 7.
Definition x_a : vslot string := mkV "rootfs.0" "rootfs" (Some "/dev/sda2") (Some "ext4") (Some "A") ST_BOOTED None None (Some "/") B_GOOD None.
Definition x_b : vslot string := mkV "appfs.0" "appfs" (Some "/dev/sda4") (Some "ext4") None ST_ACTIVE (Some "rootfs.0") (Some "/mnt/a b") None B_UNKNOWN None.
Definition x_slots : list (vslot string * rstat string) := [(x_a, x_stat); (x_b, rstat0)].
Definition x_repos : list arepo :=
  [mkAr "files" (Some "/srv") (Some "trees") None [mkAa "net" [mkAi "aa" ["files"]; mkAi "bb" []]];
   mkAr "addons" (Some "/add") None (Some "rootfs") [mkAa "x" [mkAi "cc" ["rootfs.0"; "rootfs.1"]]]].
Lemma x_service : service_ok x_iso x_slots.
Proof.
  split; [| split].
  - repeat constructor; cbn; intuition discriminate.
  - intros s r [H | [H | []]]; injection H as <- <-.
    + split; [discriminate |]. split; [cbn; lia |]. intros p H. discriminate H.
    + split; [discriminate |]. split; [cbn; lia |]. intros p H. injection H as <-. exists (x_a, x_stat). split; [left; reflexivity | reflexivity].
  - reflexivity.
Qed.

Definition x_image (n : string) : image := mkImage "rootfs" None (Some "v 1") (Some "d1") 42 (Some n) (Some "raw") false true false true [] [] [].
Definition x_meta : list (string * list (string * string)) := [("a", [("b-c", "1")]); ("a-b", [("c", "2")])].
Definition x_mf : manifest := mkManifest (Some "acme") None (Some "don't `reboot`") None None F_VERITY true None None 0 None None None None true [x_image "r.img"; x_image "r2.img"] x_meta.

(** two keys of the meta data can have the same variable: the one read last hides the other *)
Lemma c64_meta_refuted : ~ (forall m hash g kvs k v, In (g, kvs) (mf_meta m) -> In (k, v) kvs -> all_chars key_char g = true -> all_chars key_char k = true ->
  NoDup (map fst (mf_meta m)) -> exists out, info_shell m hash = Ok out /\ sets out ("RAUC_META_" ++ smap env_conv g ++ "_" ++ smap env_conv k) (Some v)).
Proof.
  intro H. destruct (H x_mf None "a" [("b-c", "1")] "b-c" "1") as (out & E & l & Ev & V); [left; reflexivity | left; reflexivity | reflexivity | reflexivity | |].
  { repeat constructor; cbn; intuition discriminate. }
  vm_compute in E. apply Ok_inj in E. subst out. vm_compute in Ev. apply Some_inj in Ev. subst l. vm_compute in V. discriminate V.
Qed.
(** an unknown primary slot is not shown as empty *)
Lemma c64_primary_refuted : ~ (forall (c : cstatus string) det out, c_primary c = None -> status_shell x_iso det c = Ok out -> sets out "RAUC_BOOT_PRIMARY" (Some "") \/ sets out "RAUC_BOOT_PRIMARY" None).
Proof.
  intro H. set (c := mkC (Some "acme") (Some "") (Some "") (Some "A") None [] [] : cstatus string).
  destruct (status_shell x_iso false c) as [out | |] eqn:E; try discriminate. specialize (H c false out eq_refl E). vm_compute in E. apply Ok_inj in E. subst out.
  destruct H as [(l & Ev & V) | (l & Ev & V)]; vm_compute in Ev; apply Some_inj in Ev; subst l; vm_compute in V; discriminate V.
Qed.
(** a blank in a slot's name breaks RAUC_SYSTEM_SLOTS *)
Lemma c64_blank_refuted : ~ (forall (c : cstatus string) det out names k s, status_shell x_iso det c = Ok out -> sets out "RAUC_SYSTEM_SLOTS" (Some names) ->
  nth_error (c_slots c) k = Some s -> nth_error (split_on " " names) k = Some (v_name s)).
Proof.
  intro H. set (s := mkV "root fs.0" "root fs" (Some "/dev/sda2") (Some "ext4") (Some "A") ST_BOOTED None None None B_GOOD None : vslot string).
  set (c := mkC (Some "acme") (Some "") (Some "") (Some "A") None [s] [] : cstatus string).
  assert (X : exists out, status_shell x_iso false c = Ok out /\ sets out "RAUC_SYSTEM_SLOTS" (Some "root fs.0")).
  { eexists. split; [vm_compute; reflexivity |]. eexists. split; vm_compute; reflexivity. }
  destruct X as (out & E & V). specialize (H c false out _ 0 s E V eq_refl). vm_compute in H. discriminate H.
Qed.
(** a counter without its time stamp gets lost between the service and the client *)
Lemma c64_count_refuted : ~ (forall slots s r c out det, service_ok x_iso slots -> In (s, r) slots -> det = true ->
  via_dbus x_iso det None None None None None slots [] (fun l => l) = Ok c -> status_shell x_iso det c = Ok out ->
  exists k, sets out ("RAUC_SLOT_STATUS_ACTIVATED_COUNT_" ++ num k) (Some (print_num 10 (rs_acount r)))).
Proof.
  intro H. destruct (via_dbus x_iso true None None None None None [(x_a, x_stat)] [] (fun l => l)) as [c | |] eqn:E; try discriminate.
  vm_compute in E. apply Ok_inj in E. destruct (status_shell x_iso true c) as [out | |] eqn:F; [| subst c; discriminate F | subst c; discriminate F].
  destruct (H [(x_a, x_stat)] x_a x_stat c out true) as (k & l & Ev & V).
  - destruct x_service as (ND & A & P). split; [repeat constructor; intros [] |]. split; [| exact P]. intros s r [X | []]. injection X as <- <-.
    split; [discriminate |]. split; [cbn; lia |]. intros p X. discriminate X.
  - left. reflexivity.
  - reflexivity.
  - subst c. vm_compute. reflexivity.
  - exact F.
  - subst c. vm_compute in F. apply Ok_inj in F. subst out. vm_compute in Ev. apply Some_inj in Ev. subst l.
    assert (G : forall l, forallb (fun kv => negb (String.eqb (snd kv) "7")) l = true -> forall n, value_of n l <> Some "7").
    { clear. induction l as [| [a b] l IH]; intros B n X; [discriminate X |]. cbn [forallb snd] in B. apply andb_prop in B as [B1 B2]. cbn [value_of] in X.
      destruct (value_of n l) as [w |] eqn:W.
      - apply (IH B2 n). rewrite W. exact X.
      - destruct (String.eqb a n); [| discriminate X]. injection X as ->. discriminate B1. }
    revert V. change (print_num 10 (rs_acount x_stat)) with "7". apply G. vm_compute. reflexivity.
Qed.
