(** C68: composefs artifacts: every link always points to a complete artifact. *)
From Verif Require Import Base BaseLemmas Cfs CfsSpec CfsProofs.

Theorem C68_history : forall load imgok right d c,
  disk_ok d -> links_complete load imgok right d -> history load imgok right d c -> links_complete load imgok right c.
Proof. exact c68_history_ok. Qed.
Print Assumptions C68_history.
Theorem C68_run : forall load imgok right d ops m w1 w2 b imgs env r s,
  disk_ok d -> links_complete load imgok right d -> session load imgok right d ops m ->
  links_synced m (poss_ops ops d (on_disk d)) -> open_good load imgok right w1 m (poss_ops ops d (on_disk d)) -> bundle_good imgok right b imgs ->
  install_run load w1 w2 b imgs (mkst m ops env) = (r, s) ->
  r <> Abort /\
  ((exists repo, r = Ok repo) ->
   (forall n, get (KLink n) (s_dir s) = match last_image imgs n with
                                        | Some i => Some (i_digest i)
                                        | None => match imgs with [] => get (KLink n) m | _ => None end
                                        end) /\
   (forall n g, get (KArt n g) (s_dir s) <> None -> complete load imgok right (s_dir s) n g /\ (get (KLink n) (s_dir s) = Some g \/ w_open w2 n g = Some true)) /\
   (forall o, get (KObj o) (s_dir s) <> None -> needed load (s_dir s) o) /\
   (forall n g, get (KTmp n g) (s_dir s) = None) /\
   links_synced (s_dir s) (poss_ops (s_ops s) d (on_disk d))).
Proof. exact c68_run_ok. Qed.
Print Assumptions C68_run.
Theorem C68_in_use : forall load imgok right d w1 w2 b imgs env r s,
  disk_ok d -> links_complete load imgok right d -> open_good load imgok right w1 d (on_disk d) -> bundle_good imgok right b imgs ->
  install_run load w1 w2 b imgs (start d env) = (r, s) ->
  forall n g, w_open w1 n g = Some true -> w_open w2 n g = Some true -> get (KArt n g) d <> None ->
  forall c, crash d (s_ops s) c -> complete load imgok right c n g.
Proof. exact c68_open_ok. Qed.
Print Assumptions C68_in_use.
Theorem C68_names : forall n,
  (forall l, collect n = Ok l -> (forall p, In p l <-> file_below n p) /\ Forall object_name l) /\
  (collect n = Err <-> exists p, file_below n p /\ ~ object_name p) /\
  collect n <> Abort.
Proof. exact c68_names_ok. Qed.
Print Assumptions C68_names.
Theorem C68_unsynced_refuted : exists load imgok right d w b imgs env1 s1 env2 s2 c,
  disk_ok d /\ links_complete load imgok right d /\ bundle_good imgok right b imgs /\ (forall n g, w_open w n g = Some false) /\
  install_run load w w b imgs (start d env1) = (Err, s1) /\
  install_run load w w b imgs (mkst (s_dir s1) (s_ops s1) env2) = (Err, s2) /\
  disk_ok c /\ crash d (s_ops s2) c /\ ~ links_complete load imgok right c.
Proof. exact c68_unsynced_refuted. Qed.
Print Assumptions C68_unsynced_refuted.
Theorem C68_repair_refuted : exists load imgok right d w b i r s,
  disk_ok d /\ bundle_good imgok right b [i] /\ (forall n g, w_open w n g = Some false) /\
  (exists objs, objects_of load (i_img i) = Ok objs /\ forall o, In o objs -> exists c, lookup b o = Some c) /\
  install_run load w w b [i] (start d []) = (Ok r, s) /\ get (KLink (i_name i)) (s_dir s) = Some (i_digest i) /\ ~ complete load imgok right (s_dir s) (i_name i) (i_digest i).
Proof. exact c68_repair_refuted. Qed.
Print Assumptions C68_repair_refuted.

(** Two artifacts sharing an object, installed over an older one, and the next installation in the same boot. *)
Definition w68 : world := mkworld (fun _ => [""%string]) (fun _ => [""%string; "x"%string]) (fun n g => Some (String.eqb n "a" && String.eqb g "1")).
Definition im68 := [mkimage "a" "2" "I2"; mkimage "b" "3" "I3"].
Definition s68 := snd (install_run ex_load w68 ex_w ex_bundle im68 (start ex_disk [])).
Example C68_run_example :
  (exists r, install_run ex_load w68 ex_w ex_bundle im68 (start ex_disk []) = (Ok r, s68)) /\
  get (KLink "a") (s_dir s68) = Some "2"%string /\ get (KLink "b") (s_dir s68) = Some "3"%string /\
  get (KArt "a" "1") (s_dir s68) = None /\ get (KObj ex_o1) (s_dir s68) = None /\ get (KObj ex_o3) (s_dir s68) = Some "cc"%string.
Proof. split; [eexists; vm_compute; reflexivity|]. repeat split; vm_compute; reflexivity. Qed.
Example C68_open_example : open_good ex_load ex_imgok ex_right w68 ex_disk (on_disk ex_disk).
Proof.
  intros n g H _. cbn in H. injection H as H. apply andb_prop in H as [H1 H2]. apply String.eqb_eq in H1, H2. subst.
  exists "I1"%string, [ex_o1]. split; [intros v ->; reflexivity|]. split; [reflexivity|]. split; [reflexivity|]. intros o [<-|[]] v ->. exists "aa"%string. split; reflexivity.
Qed.
Example C68_session_example : session ex_load ex_imgok ex_right ex_disk (s_ops s68) (s_dir s68) /\ links_synced (s_dir s68) (poss_ops (s_ops s68) ex_disk (on_disk ex_disk)).
Proof.
  assert (ND : disk_ok ex_disk) by (repeat constructor; cbn; intuition congruence).
  destruct C68_run_example as ((r & R) & _). change (start ex_disk []) with (mkst ex_disk [] []) in R.
  assert (L0 : links_synced ex_disk (poss_ops [] ex_disk (on_disk ex_disk))) by (intros n v H; exact H).
  split.
  - exact (S_run _ _ _ _ [] ex_disk w68 ex_w ex_bundle im68 [] (Ok r) s68 (S_boot _ _ _ _) L0 C68_open_example ex_bundle_good R).
  - destruct (C68_run ex_load ex_imgok ex_right ex_disk [] ex_disk w68 ex_w ex_bundle im68 [] (Ok r) s68 ND ex_disk_complete (S_boot _ _ _ _) L0 C68_open_example ex_bundle_good R) as (_ & X).
    destruct (X (ex_intro _ r eq_refl)) as (_ & _ & _ & _ & Y). exact Y.
Qed.
(** a crash in the middle: the object written last may be missing, the new link too *)
Example C68_crash_example : exists c, crash ex_disk (s_ops s68) c /\ get (KTmp "a" "2") c = Some "x"%string /\ get (KObj ex_o2) c = None /\ get (KLink "a") c = Some "1"%string.
Proof.
  exists (play (firstn 3 (s_ops s68)) ex_disk). split; [|repeat split; vm_compute; reflexivity].
  exists (firstn 3 (s_ops s68)), (skipn 3 (s_ops s68)). split; [symmetry; apply firstn_skipn|]. apply poss_ops_cur. reflexivity.
Qed.
Example C68_names_example : objects_of ex_load "I3" = Ok [ex_o2; ex_o3] /\ collect (Node false None [Node true (Some "aa/../../x"%string) []]) = Err.
Proof. split; vm_compute; reflexivity. Qed.
