(** Property theorems from the bundle file to the slots (C76). *)
From Verif Require Import Base BaseLemmas Slot Image Handlers KeyFile Hex Semver SemverSpec Manifest ManifestCheckProofs Bundle BundleSpec BundleProofs
  Install InstallSpec InstallProofs Uboot UbootSpec InstallRun InstallRunSpec BootInst InstallRunExamples Gates GatesSpec GatesProofs Signature SignatureSpec SignatureExamples BootSafeProofs EndToEndSpec EndToEndProofs.
Open Scope list_scope.

(** whatever reaches a slot was signed by a trusted signer, passed the gates, and goes to
    an inactive slot of the class it is meant for *)
Theorem C76_write : forall B V P (t : attempt B) realdev bootslot d c,
  let slots := cf_slots (gc_sys (at_conf t)) in
  let st := in_states (at_inp t) in
  honest (vf_ssl V) P -> at_crypto t = vf_crypto V -> steady t ->
  unique_names slots -> wf_parents slots ->
  determine_slot_states realdev (Some bootslot) slots = Ok st ->
  In (GRun (EWrite d c)) (snd (attempt_run t)) ->
  exists m e s i,
    vouched V P t m /\ gates_open t m /\ bc_allowed (gc_bundle (at_conf t)) (mf_format m) = true /\ mf_handler m = None /\
    hd_error (snd (attempt_run t)) = Some (GAccess e) /\ reads_signed m e /\
    In s slots /\ sl_device s = d /\ sl_readonly s = false /\
    (forall booted, In booted slots -> st (sl_name booted) = ST_BOOTED -> sl_parent booted = None ->
       sl_name s <> sl_name booted /\ sl_parent s <> Some (sl_name booted) /\ st (sl_name s) = ST_INACTIVE) /\
    image_for (cf_variant (gc_sys (at_conf t))) (mf_images m) (sl_class s) = Some i /\
    (c = Torn \/ c = Whole (im_digest i)).
Proof. exact c76_write_ok. Qed.
Print Assumptions C76_write.

(** a bundle which is not signed like that changes nothing at all *)
Theorem C76_unsigned : forall B V P (t : attempt B), honest (vf_ssl V) P -> at_crypto t = vf_crypto V ->
  (forall size c, ~ bundle_signed V P t size c) -> snd (attempt_run t) = [] /\ fst (attempt_run t) <> Ok tt.
Proof. exact c76_unsigned_ok. Qed.
Print Assumptions C76_unsigned.

(** over any history of attempts, crashes and restarts: a complete image in a slot was there
    from the start, or is one which a trusted signer vouched for *)
Theorem C76_provenance : forall B (bk : backend B) cf V P (A : attempt B -> Prop) w0 w dev d,
  unique_names (cf_slots cf) -> wf_parents (cf_slots cf) -> honest (vf_ssl V) P ->
  (forall t, A t -> on_system V bk cf t) ->
  history A w0 w -> w_dev w dev = Whole d ->
  w_dev w0 dev = Whole d \/
  exists t m s i, A t /\ vouched V P t m /\ gates_open t m /\ bc_allowed (gc_bundle (at_conf t)) (mf_format m) = true /\
    In s (cf_slots cf) /\ sl_device s = dev /\ sl_readonly s = false /\
    image_for (cf_variant cf) (mf_images m) (sl_class s) = Some i /\ im_digest i = d.
Proof. exact c76_provenance_ok. Qed.
Print Assumptions C76_provenance.

(** ... the status file tells the truth *)
Theorem C76_status_true : forall B (bk : backend B) cf V (A : attempt B -> Prop) w0 w,
  unique_names (cf_slots cf) -> distinct_devices (cf_slots cf) -> wf_parents (cf_slots cf) -> cf_per_slot cf = false ->
  (forall t, A t -> on_system V bk cf t) ->
  status_true (cf_slots cf) w0 -> history A w0 w -> status_true (cf_slots cf) w.
Proof. exact c76_status_ok. Qed.
Print Assumptions C76_status_true.

(** ... and the system boots, from intact slots *)
Theorem C76_boot_safe : forall B (bk : backend B) cf V (A : attempt B -> Prop) (good : B -> Prop) cand bt w0 w,
  boot_laws (cf_slots cf) good cand bt bk ->
  unique_names (cf_slots cf) -> distinct_devices (cf_slots cf) -> wf_parents (cf_slots cf) ->
  unique_bootnames (cf_slots cf) -> cf_per_slot cf = false ->
  (forall t, A t -> on_system V bk cf t /\ forall m, delivers t m -> proper cand cf (with_bundle (at_inp t) m) (at_world t)) ->
  status_true (cf_slots cf) w0 -> boot_safe (cf_slots cf) good cand bt w0 ->
  history A w0 w ->
  (exists n, bt (w_boot w) n) /\ forall n, bt (w_boot w) n -> intact (cf_slots cf) w n.
Proof. exact c76_boot_ok. Qed.
Print Assumptions C76_boot_safe.

(** *** Example: an A/B system with U-Boot, a signed verity bundle with images for both
    slots of a group *)
Definition e2e_img (c : string) : image :=
  mkImage c None None (Some ex_hex) 7 (Some "x.ext4") (Some "ext4") true false false false [] [] [].
Definition e2e_mf (f : bformat) : manifest :=
  mkManifest (Some "sys") (Some "2.1") None None None f true
    (match f with F_PLAIN => None | _ => Some ex_hex end) (match f with F_PLAIN => None | _ => Some ex_hex end)
    (match f with F_PLAIN => 0 | _ => 4096 end) None None None None false [e2e_img "rootfs"; e2e_img "appfs"] [].
Definition e2e_V : verifier :=
  mkVerifier ex_ssl (mkKeyconf (Some "/etc/rauc/ca.pem") None false false (Some "codesign-rauc") (Some ["Example Release Key"]) false false)
    (fun b => match b with ["M"%char] => Ok (e2e_mf F_VERITY) | _ => Err end)
    (fun b => Ok (e2e_mf F_PLAIN)) (fun _ _ _ _ => true).
Definition e2e_gconf : gconf :=
  mkGconf (Some "sys") (Some "2.0") true true (mkBconf true false (fun _ => true) 65536 "1.14") exr_cf.
Definition e2e_size : nat := 64 * 128.
Definition e2e_attempt (sig : ascii) (w : world env) : attempt env :=
  let f := append_signature (repeat "P"%char e2e_size) [sig] in
  mkAttempt env (vf_crypto e2e_V) (fun _ => "hash") exr_bk e2e_gconf (mkIargs false false None)
    (mkGout true true true true true true) false f f true true (exr_inp []) w.
Definition e2e_writes (l : list (gevent env)) : list (string * content) :=
  flat_map (fun e => match e with GRun (EWrite d c) => [(d, c)] | _ => [] end) l.

(** a verity bundle, and a plain one with a detached signature *)
Example ex_e2e_signed : forall sig, In sig ["I"%char; "D"%char] ->
  fst (attempt_run (e2e_attempt sig exr_w0)) = Ok tt /\
  e2e_writes (snd (attempt_run (e2e_attempt sig exr_w0))) =
    [("/dev/b", Torn); ("/dev/b", Whole (Some ex_hex)); ("/dev/d", Torn); ("/dev/d", Whole (Some ex_hex))].
Proof. intros sig [<-|[<-|[]]]; split; vm_compute; reflexivity. Qed.
(** signed for another purpose; by two signers; no signature: no events *)
Example ex_e2e_refused : forall sig, In sig ["S"%char; "A"%char; "x"%char] -> attempt_run (e2e_attempt sig exr_w0) = (Err, []).
Proof. intros sig [<-|[<-|[<-|[]]]]; vm_compute; reflexivity. Qed.
Example ex_e2e_unsigned : forall size c, ~ bundle_signed e2e_V ex_pki (e2e_attempt "x" exr_w0) size c.
Proof.
  intros size c [(raw & sig & O & D & PS) _].
  assert (E : open_local 65536 (append_signature (repeat "P"%char e2e_size) ["x"%char]) = Ok (e2e_size, ["x"%char])) by (vm_compute; reflexivity).
  cbn [e2e_attempt at_remote at_file at_conf] in O.
  assert (EQ : Ok (e2e_size, ["x"%char]) = Ok (size, raw)) by (rewrite <- E; exact O).
  apply Ok_inj in EQ. injection EQ as <- <-. cbn in D. subst sig. clear E O. discriminate PS.
Qed.
(** the hypotheses of the theorems hold *)
Example ex_e2e_hyps : honest (vf_ssl e2e_V) ex_pki /\ (forall sig w, on_system e2e_V exr_bk exr_cf (e2e_attempt sig w)) /\
  determine_slot_states (fun d => d) (Some "A") (cf_slots exr_cf) = Ok (in_states (at_inp (e2e_attempt "I" exr_w0))) /\
  unique_names ex_tree /\ distinct_devices ex_tree /\ wf_parents ex_tree /\ unique_bootnames ex_tree /\
  status_true ex_tree exr_w0 /\ boot_safe ex_tree uboot_good uboot_cand boots exr_w0.
Proof.
  split; [exact ex_honest|]. split; [intros; repeat split|]. split; [reflexivity|].
  destruct exr_cfg as (X1 & X2 & X3 & X4). repeat (split; [assumption|]). split; [|exact exr_safe0].
  intros s d _ [H|H]; discriminate.
Qed.
(** a history: an installation cut off inside the first image, then a complete one; [proper]
    holds for both *)
Lemma e2e_load : forall mb m, vf_load e2e_V mb = Ok m -> mf_images m = [e2e_img "rootfs"; e2e_img "appfs"].
Proof.
  intros mb m V. cbn [vf_load e2e_V] in V. destruct mb as [|x [|y l]]; try discriminate V; destruct x as [[] [] [] [] [] [] [] []]; try discriminate V;
    apply Ok_inj in V; subst; reflexivity.
Qed.
Lemma e2e_delivers : forall sig w m, delivers (e2e_attempt sig w) m -> mf_images m = [e2e_img "rootfs"; e2e_img "appfs"].
Proof.
  intros sig w m (b & b' & e & CB & MB & EM).
  destruct (mounted_vouched e2e_V ex_pki (e2e_attempt sig w) b b' e m ex_honest eq_refl ltac:(intros _; reflexivity) CB MB EM) as (m0 & (size & c & _ & V) & _ & _ & F & _).
  assert (E : mf_images m0 = [e2e_img "rootfs"; e2e_img "appfs"]).
  { destruct (cs_content c) as [mb|]; destruct V as [V _].
    - exact (e2e_load _ _ V).
    - apply Ok_inj in V. subst. reflexivity. }
  rewrite E in F. inversion F as [|a1 b1 l1 l2 S1 F1]; subst. inversion F1 as [|a2 b2 l3 l4 S2 F2]; subst. inversion F2; subst.
  assert (X : forall c i, same_but_size (e2e_img c) i -> i = e2e_img c).
  { intros cc i [-> [X|(X & _)]]; [cbn in X |- *; rewrite X; reflexivity|discriminate]. }
  now rewrite (X _ _ S1), (X _ _ S2).
Qed.
Lemma e2e_proper : forall sig w m, uboot_cand (w_boot w) "A" -> delivers (e2e_attempt sig w) m ->
  proper uboot_cand exr_cf (with_bundle (at_inp (e2e_attempt sig w)) m) w.
Proof.
  intros sig w m HC HD. apply e2e_delivers in HD. split.
  - exists (fun d => d), "A", exR0, "A". repeat split; try reflexivity; try (left; reflexivity); apply HC.
  - intros ps Hp s r Hs (Hr & Hpa & Hsr) Hn.
    unfold planned, with_bundle in Hp. cbn [in_images in_states in_info in_artifacts_ok] in Hp. rewrite HD in Hp.
    assert (W : written ps = [exR1; exP1]) by (vm_compute in Hp; apply Ok_inj in Hp; subst ps; reflexivity).
    rewrite W. cbn [cf_slots exr_cf] in *. cbn in Hs, Hr.
    destruct Hs as [<-|[<-|[<-|[<-|[]]]]]; destruct Hr as [<-|[<-|[<-|[<-|[]]]]]; cbn in Hpa, Hsr, Hn |- *; try discriminate;
      try (destruct Hsr as [[? ?]|?]; discriminate); intuition discriminate.
Qed.
Definition e2e_w1 : world env := restart (replay exr_w0 (state_changes (firstn 7 (snd (attempt_run (e2e_attempt "I" exr_w0)))))).
Definition e2e_w2 : world env := replay e2e_w1 (state_changes (snd (attempt_run (e2e_attempt "D" e2e_w1)))).
Definition e2e_A (t : attempt env) : Prop := exists sig w, t = e2e_attempt sig w /\ uboot_cand (w_boot w) "A".
Example ex_e2e_history :
  (forall t, e2e_A t -> on_system e2e_V exr_bk exr_cf t /\
     forall m, delivers t m -> proper uboot_cand exr_cf (with_bundle (at_inp t) m) (at_world t)) /\
  history e2e_A exr_w0 e2e_w2 /\
  (forall d, In d ["/dev/a"; "/dev/b"; "/dev/c"; "/dev/d"] -> w_dev exr_w0 d = Whole (Some "11")) /\
  map (w_dev e2e_w1) ["/dev/a"; "/dev/b"; "/dev/c"; "/dev/d"] = [Whole (Some "11"); Torn; Whole (Some "11"); Whole (Some "11")] /\
  map (w_dev e2e_w2) ["/dev/a"; "/dev/b"; "/dev/c"; "/dev/d"] = [Whole (Some "11"); Whole (Some ex_hex); Whole (Some "11"); Whole (Some ex_hex)].
Proof.
  split.
  { intros t (sig & w & -> & HC). split; [repeat split|]. intros m HD. cbn [e2e_attempt at_world]. now apply e2e_proper. }
  assert (C0 : uboot_cand (w_boot exr_w0) "A") by (split; vm_compute; auto).
  assert (C1 : uboot_cand (w_boot e2e_w1) "A") by (split; vm_compute; auto).
  split.
  { apply (hist_attempt e2e_A exr_w0 (e2e_attempt "D" e2e_w1)); [|exists "D"%char, e2e_w1; auto].
    apply (hist_crash e2e_A exr_w0 (e2e_attempt "I" exr_w0) 7); [apply hist_start|exists "I"%char, exr_w0; auto]. }
  split; [intros d _; reflexivity|]. split; vm_compute; reflexivity.
Qed.
