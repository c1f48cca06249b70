(** C62: creating a bundle. *)
From Verif Require Import Base KeyFile Image Manifest BundleCreate BundleCreateSpec BundleCreateLink BundleCreateFrame BundleCreateProofs
  BundleCreateRun BundleCreateOut BundleCreateDone BundleCreateEnd BundleCreateConv BundleCreateCases BundleCreateMore BundleCreateIndex BundleCreateLive.

Theorem C62_inputs_untouched : forall e s r s', create_bundle e s = (r, s') ->
  (forall n p, n <> ".rauc-workdir" -> tget (s_root s') (n :: p) = tget (s_root s) (n :: p))
  /\ (inodes_ok s -> forall p i, input_file s p i -> s_cont s' i = s_cont s i).
Proof. exact c62_inputs_ok. Qed.
Print Assumptions C62_inputs_untouched.
Theorem C62_existing_output : forall e s o, s_out s = Some o -> create_bundle e s = (Ret false true, s).
Proof. exact c62_existing_output_ok. Qed.
Print Assumptions C62_existing_output.
Theorem C62_no_partial_output : forall e s ok err s', s_out s = None -> create_bundle e s = (Ret ok err, s') ->
  (ok = true /\ err = false)
  \/ (err = true /\
      (s_out s' = None
       \/ exists l, s_log s' = KUnlinkOut :: l /\ a_ok (e_ans e (List.length l)) = false)).
Proof. exact c62_no_partial_output_ok. Qed.
Print Assumptions C62_no_partial_output.
Theorem C62_odd_success : forall e s s', s_out s = None -> create_bundle e s = (Ret true true, s') ->
  exists l r c, s_log s' = l ++ c :: r /\ (c = KFakeInit \/ c = KRmTree [".rauc-workdir"])
    /\ a_ok (e_ans e (List.length r)) = false.
Proof. exact c62_odd_success_ok. Qed.
Print Assumptions C62_odd_success.
Theorem C62_fakeroot : forall e s ok err s', s_fake s = false -> create_bundle e s = (Ret ok err, s') -> s_fake s' = true ->
  exists l r c, s_log s' = l ++ c :: r /\ (c = KFakeInit \/ c = KFakeRm) /\ a_ok (e_ans e (List.length r)) = false.
Proof. exact c62_fakeroot_ok. Qed.
Print Assumptions C62_fakeroot.
Theorem C62_success : forall e s s', s_out s = None -> create_bundle e s = (Ret true false, s') ->
  exists o d c meta kf m0 ms j,
    s_out s' = Some o
    /\ layers (mf_format m0) d c meta ms o
    /\ tget (s_root s') [".rauc-workdir"] = None
    /\ parse_manifest kf = Ok m0
    /\ (forall n, assoc "manifest.raucm" (s_root s) = Some (Reg n) -> e_parse e (s_cont s n) = Some kf)
    /\ same_header m0 ms
    /\ Forall2 (described e s kf) (mf_images m0) (mf_images ms)
    /\ (if bformat_eqb (mf_format m0) F_PLAIN then check_internal (e_rauc e) ms else check_external (e_rauc e) ms) = Ok ms
    /\ assoc "manifest.raucm" d = Some (Reg j) /\ c j = CText (prepare_manifest (with_images m0 (mf_images ms)))
    /\ (meta = true <-> exists i, In i (mf_images m0) /\ In "tar-extract" (im_convert i))
    /\ (forall n p k, ~ In n (touched kf m0) -> (shows d (n :: p) k <-> sees (e_max e) (e_up e) (s_root s) (n :: p) k))
    /\ (forall n i, ~ In n (touched kf m0) -> n <> ".rauc-workdir" -> assoc n (s_root s) = Some (Reg i) -> assoc n d = Some (Reg i))
    /\ (forall i, i < s_next s -> c i = s_cont s i)
    /\ (forall p x n a, reached (e_max e) (e_up e) (s_root s) p x -> In (n, a) x -> n <> ".rauc-workdir" ->
          allowed (match p with [] => true | _ => false end) n a).
Proof. exact c62_success_ok. Qed.
Print Assumptions C62_success.
Theorem C62_images : forall e s s' o ms, s_out s = None -> inodes_ok s -> create_bundle e s = (Ret true false, s') ->
  s_out s' = Some (OSigned o ms) ->
  exists kf m0 d c meta, payload o = Some (d, c, meta) /\ parse_manifest kf = Ok m0
    /\ (forall n, assoc "manifest.raucm" (s_root s) = Some (Reg n) -> e_parse e (s_cont s n) = Some kf)
    /\ forall i f n, In i (mf_images ms) -> im_filename i = Some f -> ~ In f (touched kf m0) -> f <> ".rauc-workdir" ->
         assoc f (s_root s) = Some (Reg n) ->
         exists n', assoc f d = Some (Reg n') /\ c n' = s_cont s n
           /\ im_digest i = Some (e_sha e (c n')) /\ im_size i = Z.of_N (e_size e (c n')).
Proof. exact c62_images_ok. Qed.
Print Assumptions C62_images.
Theorem C62_no_links : forall e s s' o d c meta, s_out s = None -> create_bundle e s = (Ret true false, s') ->
  s_out s' = Some o -> payload o = Some (d, c, meta) -> no_links (Dir (s_root s)) ->
  exists kf m0 t, parse_manifest kf = Ok m0
    /\ (forall n, assoc "manifest.raucm" (s_root s) = Some (Reg n) -> e_parse e (s_cont s n) = Some kf)
    /\ without_wd (Dir (s_root s)) = Dir t
    /\ forall n p k, ~ In n (touched kf m0) -> (shows d (n :: p) k <-> shows t (n :: p) k).
Proof. exact c62_no_links_ok. Qed.
Print Assumptions C62_no_links.
Theorem C62_confined_without_dotdot : forall e s s' o d c meta, s_out s = None -> create_bundle e s = (Ret true false, s') ->
  s_out s' = Some o -> payload o = Some (d, c, meta) -> no_link_to ".." (Dir (s_root s)) ->
  exists kf m0, parse_manifest kf = Ok m0
    /\ (forall n, assoc "manifest.raucm" (s_root s) = Some (Reg n) -> e_parse e (s_cont s n) = Some kf)
    /\ forall n p i, ~ In n (touched kf m0) -> shows d (n :: p) (KFile i) -> exists q, shows (s_root s) q (KFile i).
Proof. exact c62_confined_ok. Qed.
Print Assumptions C62_confined_without_dotdot.
Theorem C62_converted : forall e s s' o d c meta, s_out s = None -> create_bundle e s = (Ret true false, s') ->
  s_out s' = Some o -> payload o = Some (d, c, meta) ->
  exists kf m0, parse_manifest kf = Ok m0
    /\ (forall n, assoc "manifest.raucm" (s_root s) = Some (Reg n) -> e_parse e (s_cont s n) = Some kf)
    /\ forall i f, In i (mf_images m0) -> im_filename i = Some f ->
         (In "tar-extract" (im_convert i) -> exists x, assoc (f ++ ".extracted")%string d = Some (Dir x))
         /\ (In "composefs" (im_convert i) -> exists x, assoc (f ++ ".cfs")%string d = Some (Dir x)).
Proof. exact c62_converted_ok. Qed.
Print Assumptions C62_converted.
Theorem C62_requirements : forall e s s', s_out s = None -> create_bundle e s = (Ret true false, s') ->
  exists kf m0, parse_manifest kf = Ok m0
    /\ (forall n, assoc "manifest.raucm" (s_root s) = Some (Reg n) -> e_parse e (s_cont s n) = Some kf)
    /\ assoc "manifest.raucm" (s_root s) <> None
    /\ (forall h, mf_hook m0 = Some h -> h = "." \/ h = ".." \/ h = ".rauc-workdir" \/ assoc h (s_root s) <> None)
    /\ forall i, In i (mf_images m0) ->
         (forall f, im_filename i = Some f -> has_char "/" f = false /\ assoc f (s_root s) <> None)
         /\ (forall m, In m (im_adaptive i) -> m = "block-hash-index" \/ m = "adaptive-test-method")
         /\ (forall m, In m (im_convert i) -> m = "tar-extract" \/ (m = "composefs" /\ e_composefs e = true) \/ m = "keep")
         /\ (im_install i = true -> im_pre i = false /\ im_post i = false)
         /\ im_digest i = None /\ im_size i = (-1)%Z /\ im_converted i = [].
Proof. exact c62_requirements_ok. Qed.
Print Assumptions C62_requirements.
Theorem C62_tools : forall e s s', s_out s = None -> create_bundle e s = (Ret true false, s') ->
  exists kf m0 calls, parse_manifest kf = Ok m0
    /\ (forall n, assoc "manifest.raucm" (s_root s) = Some (Reg n) -> e_parse e (s_cont s n) = Some kf)
    /\ s_log s' = calls ++ s_log s
    /\ forall c, In c calls ->
         let under_fakeroot b := b = true <-> (asks m0 "tar-extract" \/ asks m0 "composefs") /\ e_pseudo e = false /\ e_root e = false in
         match c with
         | KTar _ _ fake | KComposefs _ _ _ fake => under_fakeroot fake
         | KSquash src meta fake => src = [".rauc-workdir"] /\ (meta = true <-> asks m0 "tar-extract") /\ under_fakeroot fake
         | KFakeInit => under_fakeroot true
         | _ => True
         end.
Proof. exact c62_tools_ok. Qed.
Print Assumptions C62_tools.
Theorem C62_dropped : forall e s s' o d c meta, s_out s = None -> create_bundle e s = (Ret true false, s') ->
  s_out s' = Some o -> payload o = Some (d, c, meta) ->
  exists kf m0, parse_manifest kf = Ok m0
    /\ (forall n, assoc "manifest.raucm" (s_root s) = Some (Reg n) -> e_parse e (s_cont s n) = Some kf)
    /\ forall i f, In i (mf_images m0) -> im_filename i = Some f -> im_convert i <> [] -> ~ In "keep" (im_convert i) ->
         f <> "manifest.raucm" -> (forall j, In j (mf_images m0) -> ~ In f (touched_by j)) -> assoc f d = None.
Proof. exact c62_dropped_ok. Qed.
Print Assumptions C62_dropped.
Theorem C62_index : forall e s s' o d c meta, s_out s = None -> inodes_ok s -> create_bundle e s = (Ret true false, s') ->
  s_out s' = Some o -> payload o = Some (d, c, meta) ->
  exists kf m0, parse_manifest kf = Ok m0
    /\ (forall n, assoc "manifest.raucm" (s_root s) = Some (Reg n) -> e_parse e (s_cont s n) = Some kf)
    /\ forall i f n, In i (mf_images m0) -> im_filename i = Some f -> In "block-hash-index" (im_adaptive i) ->
         assoc f (s_root s) = Some (Reg n) ->
         (forall j, In j (mf_images m0) -> ~ In f (touched_by j) /\ im_filename j <> Some (f ++ ".block-hash-index")%string) ->
         exists k, assoc (f ++ ".block-hash-index")%string d = Some (Reg k) /\ c k = CIndex (s_cont s n).
Proof. exact c62_index_ok. Qed.
Print Assumptions C62_index.
Theorem C62_completes : forall e s n kf m0,
  (forall k, a_ok (e_ans e k) = true) ->
  (forall k, hex32 (Some (a_s1 (e_ans e k))) = true /\ hex32 (Some (a_s2 (e_ans e k))) = true
             /\ (a_n (e_ans e k) <> 0)%N /\ (a_n (e_ans e k) mod 4096 = 0)%N) ->
  (forall p, e_link e p = true) -> (forall c, is_valid_digest (e_sha e c) = true) ->
  s_out s = None -> (forall t, assoc ".rauc-workdir" (s_root s) <> Some (Lnk t)) ->
  (forall p x a c, reached (e_max e) (e_up e) (s_root s) p x -> In (a, c) x -> a <> ".rauc-workdir" ->
     allowed (match p with [] => true | _ => false end) a c /\ c <> Lnk ".rauc-workdir") ->
  assoc "manifest.raucm" (s_root s) = Some (Reg n) -> e_parse e (s_cont s n) = Some kf -> parse_manifest kf = Ok m0 ->
  check_input e m0 = true -> check_create m0 = true ->
  mf_verity_hash m0 = None -> mf_verity_salt m0 = None -> mf_verity_size m0 = 0%N -> mf_crypt_key m0 = None ->
  (forall h, mf_hook m0 = Some h -> plain_name h /\ exists k, assoc h (s_root s) = Some (Reg k)) ->
  (forall i, In i (mf_images m0) -> simple_image kf i
     /\ forall f, im_filename i = Some f -> plain_name f /\ exists k, assoc f (s_root s) = Some (Reg k)) ->
  fst (create_bundle e s) = Ret true false.
Proof. exact c62_completes_ok. Qed.
Print Assumptions C62_completes.
Theorem C62_abort_only : forall e s s', s_out s = None -> create_bundle e s = (Aborted, s') ->
  exists kf m0, parse_manifest kf = Ok m0
    /\ (forall n, assoc "manifest.raucm" (s_root s) = Some (Reg n) -> e_parse e (s_cont s n) = Some kf)
    /\ ((mf_format m0 <> F_PLAIN /\ (mf_verity_hash m0 <> None \/ mf_verity_salt m0 <> None \/ mf_verity_size m0 <> 0%N))
        \/ (mf_format m0 = F_CRYPT /\ mf_crypt_key m0 <> None)).
Proof. exact c62_abort_ok. Qed.
Print Assumptions C62_abort_only.
Theorem C62_success_without_bundle_refuted :
  ~ forall e s s' err, create_bundle e s = (Ret true err, s') -> s_out s' <> None.
Proof. exact c62_success_without_bundle_refuted. Qed.
Print Assumptions C62_success_without_bundle_refuted.
Theorem C62_workdir_removal_refuted : exists e s s', s_out s = None /\ create_bundle e s = (Ret true true, s') /\ s_out s' = None
  /\ In KSign (s_log s') /\ In KUnlinkOut (s_log s')
  /\ forall n, n < List.length (s_log s') -> a_ok (e_ans e n) = true \/ nth_error (rev (s_log s')) n = Some (KRmTree [".rauc-workdir"]).
Proof. exact c62_workdir_removal_refuted. Qed.
Print Assumptions C62_workdir_removal_refuted.
Theorem C62_never_aborts_refuted : exists e s s', s_out s = None /\ create_bundle e s = (Aborted, s')
  /\ s_out s' <> None /\ tget (s_root s') [".rauc-workdir"] <> None /\ forall n, a_ok (e_ans e n) = true.
Proof. exact c62_never_aborts_refuted. Qed.
Print Assumptions C62_never_aborts_refuted.
Theorem C62_confined_refuted :
  ~ forall e s s' o d c meta p i, s_out s = None -> create_bundle e s = (Ret true false, s') -> s_out s' = Some o ->
      payload o = Some (d, c, meta) -> shows d p (KFile i) -> i < s_next s -> exists q, shows (s_root s) q (KFile i).
Proof. exact c62_confined_refuted. Qed.
Print Assumptions C62_confined_refuted.
Theorem C62_image_present_refuted :
  ~ forall e s s' o d c meta ms i f, s_out s = None -> create_bundle e s = (Ret true false, s') -> s_out s' = Some (OSigned o ms) ->
      payload o = Some (d, c, meta) -> In i (mf_images ms) -> im_filename i = Some f ->
      assoc f d <> None \/ im_converted i <> [].
Proof. exact c62_image_present_refuted. Qed.
Print Assumptions C62_image_present_refuted.
Theorem C62_shared_file_refuted :
  ~ forall e s s' o d c meta ms i f, s_out s = None -> create_bundle e s = (Ret true false, s') -> s_out s' = Some (OSigned o ms) ->
      payload o = Some (d, c, meta) -> In i (mf_images ms) -> im_filename i = Some f -> im_convert i = [] -> assoc f d <> None.
Proof. exact c62_shared_file_refuted. Qed.
Print Assumptions C62_shared_file_refuted.

(** Non-vacuity: complete runs for the three formats, a conversion, an adaptive method, a stale working
    directory, a failing step. *)
Example C62_plain_run : w_out (create_bundle (w_env (w_kf "plain" [] [] []) [] (fun _ => false)) (w_st w_root)) =
  (Ret true false, Some ([("manifest.raucm", Reg 10); ("rootfs.tar", Reg 1); ("sub", Dir [("x", Reg 2)])], false), w_root).
Proof. vm_compute. reflexivity. Qed.
Example C62_crypt_run : w_out (create_bundle (w_env (w_kf "crypt" [] [("convert", "tar-extract;composefs;keep"); ("adaptive", "block-hash-index")] []) [] (fun _ => false))
    (w_st (w_root ++ [(".rauc-workdir", Dir [("old", Reg 3)])]))) =
  (Ret true false, Some ([("manifest.raucm", Reg 11); ("rootfs.tar", Reg 1); ("sub", Dir [("x", Reg 2)]); ("rootfs.tar.block-hash-index", Reg 10);
    ("rootfs.tar.extracted", Dir [("f", Reg 7)]); ("rootfs.tar.cfs", Dir [("f", Reg 7)]); (".rauc-cfs-store", Dir [("f", Reg 7)])], true), w_root).
Proof. vm_compute. reflexivity. Qed.
Example C62_failing_run : fst (w_out (create_bundle (w_env (w_kf "verity" [] [] []) [] (Nat.eqb 6)) (w_st w_root))) = (Ret false true, None).
Proof. vm_compute. reflexivity. Qed.
Example C62_stuck_output : fst (w_out (create_bundle (w_env (w_kf "verity" [] [] []) [] (fun n => 5 <? n)%nat) (w_st w_root))) = (Ret false true, Some ([], false)).
Proof. vm_compute. reflexivity. Qed.
Example C62_abort_run : fst (create_bundle (w_env (w_kf "crypt" [("crypt-key", hex64)] [] []) [] (fun _ => false)) (w_st w_root)) = Aborted.
Proof. vm_compute. reflexivity. Qed.
Example C62_no_links_met : no_links (Dir w_root) /\ inodes_ok (w_st w_root).
Proof.
  split.
  - constructor. intros n c [E | [E | [E | []]]]; injection E as <- <-; repeat constructor. intros n c [E | []]. injection E as <- <-. constructor.
  - intros p i H. cbn [s_root w_st] in H. inversion H as [es n j I | | | es n d q k I Q]; subst.
    + destruct I as [I | [I | [I | []]]]; try discriminate I; injection I as <- <-; cbn; lia.
    + destruct I as [I | [I | [I | []]]]; try discriminate I. injection I as <- <-.
      inversion Q as [es n j I | | | es n d q1 k I Q1]; subst; (destruct I as [I | []]; try discriminate I). injection I as <- <-. cbn. lia.
Qed.
Example C62_links_followed : no_link_to ".." (Dir (("l", Lnk "sub") :: w_root)) /\
  fst (w_out (create_bundle (w_env (w_kf "verity" [] [] []) [] (fun _ => false)) (w_st (("l", Lnk "sub") :: w_root)))) =
  (Ret true false, Some ([("l", Dir [("x", Reg 2)]); ("manifest.raucm", Reg 10); ("rootfs.tar", Reg 1); ("sub", Dir [("x", Reg 2)])], false)).
Proof.
  split; [| vm_compute; reflexivity].
  constructor. intros n c [E | [E | [E | [E | []]]]]; injection E as <- <-; constructor; [discriminate |]. intros n c [E | []]. injection E as <- <-. constructor.
Qed.

Lemma w_reached : forall b p x, reached b [] w_root p x -> (p = [] /\ x = w_root) \/ x = [("x", Reg 2)].
Proof.
  intros b p x R. apply reached_inv in R as [X | (n & c & q & -> & I & _ & H)]; [auto |]. right.
  destruct I as [I | [I | [I | []]]]; injection I as <- <-; destruct H as [(d & E & R) | (t & j & d & u & E & _)]; try discriminate.
  injection E as <-. apply reached_inv in R as [[_ ->] | (n & c & r & -> & [I | []] & _ & H)]; [reflexivity |].
  injection I as <- <-. destruct H as [(d & E & _) | (t & j & d & u & E & _)]; discriminate.
Qed.
(** the hypotheses of C62_completes hold for an ordinary content directory *)
Example C62_completes_met :
  (forall k, a_ok (e_ans (w_env (w_kf "verity" [] [] []) [] (fun _ => false)) k) = true) /\
  (forall k, hex32 (Some (a_s1 (e_ans (w_env (w_kf "verity" [] [] []) [] (fun _ => false)) k))) = true) /\
  (forall b p x a c, reached b [] w_root p x -> In (a, c) x -> a <> ".rauc-workdir" ->
     allowed (match p with [] => true | _ => false end) a c /\ c <> Lnk ".rauc-workdir") /\
  exists m0, parse_manifest (w_kf "verity" [] [] []) = Ok m0 /\ check_input (w_env (w_kf "verity" [] [] []) [] (fun _ => false)) m0 = true
    /\ check_create m0 = true /\ Forall (simple_image (w_kf "verity" [] [] [])) (mf_images m0) /\ mf_images m0 <> [].
Proof.
  split; [reflexivity |]. split; [intro; vm_compute; reflexivity |]. split.
  - intros b p x a c R I _. apply w_reached in R as [[-> ->] | ->].
    + destruct I as [I | [I | [I | []]]]; injection I as <- <-; (split; [cbn; auto | discriminate]).
    + destruct I as [I | []]. injection I as <- <-. split; [exact Logic.I | discriminate].
  - eexists. split; [vm_compute; reflexivity |]. split; [vm_compute; reflexivity |]. split; [vm_compute; reflexivity |]. split; [| discriminate].
    repeat constructor.
Qed.
