(** Property theorems for the gates before an installation (C43). *)
From Verif Require Import Base BaseLemmas Slot Image Handlers KeyFile Hex Semver SemverSpec Manifest ManifestCheckProofs Bundle BundleSpec BundleProofs Install InstallRun Gates GatesSpec GatesProofs GatesComplete.

(** nothing is changed unless the bundle is signed and all gates are open *)
Theorem C43_gates : forall B (t : attempt B) e, In e (snd (attempt_run t)) -> changes e ->
  exists m, from_bundle t m /\ gates_open t m.
Proof. exact c43_ok. Qed.
Print Assumptions C43_gates.

(** a closed gate: refused without changes *)
Theorem C43_refused : forall B (t : attempt B) m r es,
  attempt_run t = (r, es) ->
  (forall b e b', og_check (at_origin t) = Ok b ->
     mount_bundle (at_crypto t) (gc_bundle (at_conf t)) (at_file_mount t) (go_mount (at_out t)) b = Ok (b', e) -> b_manifest b' = Some m) ->
  ~ gates_open t m ->
  r <> Ok tt /\ (forall e, In e es -> ~ changes e) /\
  (r = Abort -> es = []).
Proof. exact c43_refuse_ok. Qed.
Print Assumptions C43_refused.

(** the pre-install handler is run even for an incompatible bundle *)
Theorem C43_pre_install_refuted : exists t : attempt nat,
  (exists m, from_bundle t m /\ mf_compatible m <> gc_compatible (at_conf t) /\ mf_install_check m = false) /\
  ia_ignore_compatible (at_args t) = false /\ fst (attempt_run t) = Err /\ In GPre (snd (attempt_run t)).
Proof. exact c43_pre_refuted. Qed.
Print Assumptions C43_pre_install_refuted.

Example ex_gates_pass : attempt_run (ex_attempt "sys" (Some "2.1") (mkIargs false false (Some "hash"))) =
  (Ok tt, [GAccess (AMountVerity 4096 ex_hex ex_hex); GPre; GRun (EBad 1);
           GRun (ESetMem "rootfs.1" (mkStat (Some "pending") None)); GRun ESave;
           GRun (EWrite "/dev/b" Torn); GRun (EWrite "/dev/b" (Whole (Some ex_hex)));
           GRun (ESetMem "rootfs.1" (mkStat (Some "ok") (Some ex_hex))); GRun ESave; GRun (EAct 3); GRun ESave; GPost]).
Proof. vm_compute. reflexivity. Qed.
Example ex_gates_version : attempt_run (ex_attempt "sys" (Some "1.9.7") (mkIargs false false None)) =
  (Err, [GAccess (AMountVerity 4096 ex_hex ex_hex); GPre]).
Proof. vm_compute. reflexivity. Qed.
Example ex_gates_noversion : fst (attempt_run (ex_attempt "sys" None (mkIargs false false None))) = Err /\
  fst (attempt_run (ex_attempt "sys" None (mkIargs false true None))) = Ok tt.
Proof. vm_compute. auto. Qed.
Example ex_gates_hash : attempt_run (ex_attempt "sys" (Some "2.1") (mkIargs false false (Some "x"))) = (Err, []).
Proof. vm_compute. reflexivity. Qed.
Example ex_gates_compatible : fst (attempt_run (ex_attempt "abc" (Some "2.1") (mkIargs true false None))) = Ok tt.
Proof. vm_compute. reflexivity. Qed.

(** a bundle which was checked and mounted: what is run, in which order, and with which result *)
Theorem C43_course : forall B (t : attempt B) b b' e m, go_mounts (at_out t) = true -> og_check (at_origin t) = Ok b ->
  (forall h, ia_require_hash (at_args t) = Some h -> b_manifest b <> None /\ exists mb, cm_verify (at_crypto t) (b_sig b) = Some mb /\ at_sha t mb = h) ->
  (forall m0, b_manifest b = Some m0 -> mf_format m0 = F_CRYPT -> b_was_encrypted b = true) ->
  mount_bundle (at_crypto t) (gc_bundle (at_conf t)) (at_file_mount t) (go_mount (at_out t)) b = Ok (b', e) -> b_manifest b' = Some m ->
  let '(r, es) := handler_run t m in
  let before := GAccess e :: opt_ev (gc_pre (at_conf t)) GPre in
  (gc_pre (at_conf t) = true -> go_pre (at_out t) = false -> attempt_run t = (Err, before)) /\
  ((gc_pre (at_conf t) = true -> go_pre (at_out t) = true) ->
     (gates_open t m -> attempt_run t =
        (match r with Ok _ => if gc_post (at_conf t) && negb (go_post (at_out t)) then Err else Ok tt | _ => r end,
         before ++ opt_ev (mf_install_check m) GHook ++ es ++ opt_ev (match r with Ok _ => gc_post (at_conf t) | _ => false end) GPost)) /\
     (~ gates_open t m -> attempt_run t = (Err, before ++ opt_ev (mf_install_check m) GHook))).
Proof. exact c43_course_ok. Qed.
Print Assumptions C43_course.

Example ex_course : exists b b' e m, let t := ex_attempt "sys" (Some "2.1"%string) (mkIargs false false (Some "hash"%string)) in
  og_check (at_origin t) = Ok b /\ b_manifest b <> None /\ (exists mb, cm_verify (at_crypto t) (b_sig b) = Some mb /\ at_sha t mb = "hash"%string) /\
  (forall m0, b_manifest b = Some m0 -> mf_format m0 = F_CRYPT -> b_was_encrypted b = true) /\
  mount_bundle (at_crypto t) (gc_bundle (at_conf t)) (at_file_mount t) (go_mount (at_out t)) b = Ok (b', e) /\ b_manifest b' = Some m /\ gates_open t m.
Proof.
  do 4 eexists. cbv zeta. split; [vm_compute; reflexivity|]. split; [discriminate|]. split; [eexists; split; [vm_compute; reflexivity|reflexivity]|]. split; [intros m0 E; injection E as <-; discriminate|].
  split; [vm_compute; reflexivity|]. split; [reflexivity|]. split; [|split].
  - intros v E. injection E as <-. vm_compute. reflexivity.
  - right. reflexivity.
  - right; right. exists "2.0"%string, "2.1"%string. repeat split; vm_compute; reflexivity.
Qed.
