(** C63: conversion to a casync bundle ("rauc convert"). *)
From Verif Require Import Base BaseLemmas KeyFile Image Manifest BundleCreate BundleCreateSpec ShellWords CasyncConvert CasyncConvertSpec
  CasyncConvertProofs CasyncConvertRun CasyncConvertEnd CasyncConvertDone CasyncConvertTmp CasyncConvertCmd CasyncConvertLive CasyncConvertCases.

(** an existing output is never touched *)
Theorem C63_existing_output : forall e o b s x, s_out s = Some x -> create_casync e o b s = (Ret false true, s).
Proof. exact c63_existing_output_ok. Qed.
Print Assumptions C63_existing_output.
(** success without an error and with an output, or failure with an error and no output *)
Theorem C63_outcome : forall e o b s r s', s_out s = None -> create_casync e o b s = (r, s') ->
  (r = Ret true false /\ s_out s' <> None)
  \/ (r = Ret false true /\ (s_out s' = None \/ exists l, s_log s' = KUnlinkOut :: l /\ a_ok (e_ans e (List.length l)) = false)).
Proof. exact c63_outcome_ok. Qed.
Print Assumptions C63_outcome.
(** the new bundle *)
Theorem C63_success : forall e o b s s' n0, s_out s = None -> create_casync e o b s = (Ret true false, s') ->
  assoc "manifest.raucm" b = Some (Reg n0) -> n0 < s_next s ->
  exists kf m0 m1 ms d c out k0 t,
    e_parse e (s_cont s n0) = Some kf /\ parse_manifest kf = Ok m0
    /\ s_out s' = Some out /\ sealed (mf_format m0) d c ms out
    (* the manifest in the bundle, and the one in the signature *)
    /\ assoc "manifest.raucm" d = Some (Reg k0) /\ c k0 = CText (prepare_manifest m1)
    /\ same_header m0 m1 /\ mf_crypt_key m1 = mf_crypt_key m0 /\ Forall2 (reindexed (o_ignore o)) (mf_images m0) (mf_images m1)
    /\ same_header m1 ms /\ mf_crypt_key ms = mf_crypt_key m1 /\ Forall2 settled (mf_images m1) (mf_images ms)
    (* the contents *)
    /\ (forall i f x, In i (mf_images m0) -> replaced (o_ignore o) i f x -> has_char "/" f = false)
    /\ (forall k, k < s_next s -> c k = s_cont s k)
    /\ (forall n, n <> "manifest.raucm" -> (forall i f x, In i (mf_images m0) -> replaced (o_ignore o) i f x -> n <> f /\ n <> x) -> assoc n d = assoc n b)
    /\ (forall i f x, In i (mf_images m0) -> replaced (o_ignore o) i f x -> f <> "manifest.raucm" ->
          (forall j g y, In j (mf_images m0) -> replaced (o_ignore o) j g y -> f <> y) ->
          assoc f d = None \/ refused e s' (o_tmpdir o ++ "/" ++ t ++ "/content/" ++ f))
    /\ (forall i f x n, In i (mf_images m0) -> replaced (o_ignore o) i f x -> assoc f b = Some (Reg n) -> n < s_next s -> x <> "manifest.raucm" ->
          (forall j g y, In j (mf_images m0) -> replaced (o_ignore o) j g y -> f <> y /\ x <> g) ->
          exists k a, assoc x d = Some (Reg k) /\ c k = CCasync a (s_cont s n) /\ (a = true <-> archive_file f))
    /\ (mf_format m0 = F_CRYPT -> mf_crypt_key m0 <> None).
Proof. exact c63_success_ok. Qed.
Print Assumptions C63_success.
(** the directory for temporary files *)
Theorem C63_tmp : forall e o b s r s' n, s_out s = None -> create_casync e o b s = (r, s') ->
  assoc n (s_root s') = assoc n (s_root s)
  \/ (assoc n (s_root s) = None
      /\ (has_prefix "arch-" n = true
          \/ (has_prefix "rauc-casync-" n = true
              /\ exists l1 l2, s_log s' = l1 ++ KRmTree [n] :: l2 /\ a_ok (e_ans e (List.length l2)) = false))).
Proof. exact c63_tmp_ok. Qed.
Print Assumptions C63_tmp.
Theorem C63_leak : forall e o b s s' n0 kf m0 i f x, s_out s = None -> create_casync e o b s = (Ret true false, s') ->
  assoc "manifest.raucm" b = Some (Reg n0) -> e_parse e (s_cont s n0) = Some kf -> parse_manifest kf = Ok m0 ->
  In i (mf_images m0) -> replaced (o_ignore o) i f x -> archive_file f -> o_desync o = false ->
  exists n, has_prefix "arch-" n = true /\ assoc n (s_root s) = None /\ assoc n (s_root s') <> None.
Proof. exact c63_leak_ok. Qed.
Print Assumptions C63_leak.
Theorem C63_nothing_left_refuted :
  ~ forall e o b s s' n, (forall k, a_ok (e_ans e k) = true) -> s_out s = None -> create_casync e o b s = (Ret true false, s') ->
      assoc n (s_root s') = assoc n (s_root s).
Proof. exact c63_nothing_left_refuted. Qed.
Print Assumptions C63_nothing_left_refuted.
(** the programs run and the files removed *)
Theorem C63_commands : forall e o b s r s' n0, s_out s = None -> create_casync e o b s = (r, s') -> assoc "manifest.raucm" b = Some (Reg n0) ->
  exists t l, has_prefix "rauc-casync-" t = true /\ s_log s' = l ++ s_log s /\
    forall c, In c l ->
      match c with
      | KTool argv => exists kf m0 i f x store args,
          e_parse e (s_cont s n0) = Some kf /\ parse_manifest kf = Ok m0 /\ In i (mf_images m0) /\ replaced (o_ignore o) i f x
          /\ store_for (o_out o) store /\ extra_args o args
          /\ tool_call e o f (o_tmpdir o ++ "/" ++ t ++ "/content/" ++ f) (o_tmpdir o ++ "/" ++ t ++ "/content/" ++ x) store args argv
      | KRemove p => exists kf m0 i f x,
          e_parse e (s_cont s n0) = Some kf /\ parse_manifest kf = Ok m0 /\ In i (mf_images m0) /\ replaced (o_ignore o) i f x
          /\ p = (o_tmpdir o ++ "/" ++ t ++ "/content/" ++ f)%string
      | KStoreDir p => store_for (o_out o) p /\ o_desync o = true
      | _ => True
      end.
Proof. exact c63_commands_ok. Qed.
Print Assumptions C63_commands.
Theorem C63_removes_inside_refuted :
  ~ forall e o b s r s' p, s_out s = None -> s_log s = [] -> create_casync e o b s = (r, s') -> In (KRemove p) (s_log s') ->
      exists t f, has_char "/" t = false /\ has_char "/" f = false /\ p = (o_tmpdir o ++ "/" ++ t ++ "/content/" ++ f)%string.
Proof. exact c63_removes_inside_refuted. Qed.
Print Assumptions C63_removes_inside_refuted.
(** a file used by two images *)
Theorem C63_shared : forall e o b s s' n0 kf m0 l1 i l2 j l3 f x, s_out s = None -> create_casync e o b s = (Ret true false, s') ->
  assoc "manifest.raucm" b = Some (Reg n0) -> n0 < s_next s -> e_parse e (s_cont s n0) = Some kf -> parse_manifest kf = Ok m0 ->
  mf_images m0 = l1 ++ i :: l2 ++ j :: l3 -> replaced (o_ignore o) i f x -> replaced (o_ignore o) j f x ->
  (forall q g y, In q (mf_images m0) -> replaced (o_ignore o) q g y -> f <> y) ->
  exists t, refused e s' (o_tmpdir o ++ "/" ++ t ++ "/content/" ++ f).
Proof. exact c63_shared_ok. Qed.
Print Assumptions C63_shared.
Theorem C63_shared_refuted :
  ~ forall e o b s n kf m0,
  (forall k, a_ok (e_ans e k) = true) ->
  (forall k, hex32 (Some (a_s1 (e_ans e k))) = true /\ hex32 (Some (a_s2 (e_ans e k))) = true
             /\ (a_n (e_ans e k) <> 0)%N /\ (a_n (e_ans e k) mod 4096 = 0)%N) ->
  (forall j k, j < k -> k < List.length (s_log s) + 5 + 3 * List.length (mf_images m0) -> a_s1 (e_ans e j) <> a_s1 (e_ans e k)) ->
  (forall k, assoc ("rauc-casync-" ++ a_s1 (e_ans e k)) (s_root s) = None /\ assoc ("arch-" ++ a_s1 (e_ans e k)) (s_root s) = None)%string ->
  s_out s = None -> o_args o <> Some None ->
  assoc "manifest.raucm" b = Some (Reg n) -> e_parse e (s_cont s n) = Some kf -> parse_manifest kf = Ok m0 -> signable e (without_verity m0) ->
  (forall i f, In i (mf_images m0) -> im_filename i = Some f -> has_char "/" f = false) ->
  (forall i f x, In i (mf_images m0) -> replaced (o_ignore o) i f x -> (exists k, assoc f b = Some (Reg k)) /\ forall q, assoc x b <> Some (Dir q)) ->
  (forall i f x j g y, In i (mf_images m0) -> In j (mf_images m0) -> replaced (o_ignore o) i f x -> replaced (o_ignore o) j g y -> f <> y) ->
  fst (create_casync e o b s) = Ret true false.
Proof. exact c63_shared_refuted. Qed.
Print Assumptions C63_shared_refuted.
Theorem C63_converted_refuted :
  ~ forall e o b s s' n0 kf m0 d c m out i f, s_out s = None -> create_casync e o b s = (Ret true false, s') ->
      assoc "manifest.raucm" b = Some (Reg n0) -> e_parse e (s_cont s n0) = Some kf -> parse_manifest kf = Ok m0 ->
      (forall i f, In i (mf_images m0) -> In f (im_converted i) -> assoc f b <> None) ->
      s_out s' = Some out -> sealed (mf_format m) d c m out -> In i (mf_images m) -> In f (im_converted i) -> assoc f d <> None.
Proof. exact c63_converted_refuted. Qed.
Print Assumptions C63_converted_refuted.
(** when the conversion must succeed *)
Theorem C63_completes : forall e o b s n kf m0,
  (forall k, a_ok (e_ans e k) = true) ->
  (forall k, hex32 (Some (a_s1 (e_ans e k))) = true /\ hex32 (Some (a_s2 (e_ans e k))) = true
             /\ (a_n (e_ans e k) <> 0)%N /\ (a_n (e_ans e k) mod 4096 = 0)%N) ->
  (forall j k, j < k -> k < List.length (s_log s) + 5 + 3 * List.length (mf_images m0) -> a_s1 (e_ans e j) <> a_s1 (e_ans e k)) ->
  (forall k, assoc ("rauc-casync-" ++ a_s1 (e_ans e k)) (s_root s) = None /\ assoc ("arch-" ++ a_s1 (e_ans e k)) (s_root s) = None)%string ->
  s_out s = None -> o_args o <> Some None ->
  assoc "manifest.raucm" b = Some (Reg n) -> e_parse e (s_cont s n) = Some kf -> parse_manifest kf = Ok m0 -> signable e (without_verity m0) ->
  (forall i f, In i (mf_images m0) -> im_filename i = Some f -> has_char "/" f = false) ->
  (forall i f x, In i (mf_images m0) -> replaced (o_ignore o) i f x -> (exists k, assoc f b = Some (Reg k)) /\ forall q, assoc x b <> Some (Dir q)) ->
  (forall i f x j g y, In i (mf_images m0) -> In j (mf_images m0) -> replaced (o_ignore o) i f x -> replaced (o_ignore o) j g y -> f <> y) ->
  (forall l1 i l2 j l3 f x, mf_images m0 = l1 ++ i :: l2 ++ j :: l3 -> replaced (o_ignore o) i f x -> ~ replaced (o_ignore o) j f x) ->
  fst (create_casync e o b s) = Ret true false.
Proof. exact c63_completes_ok. Qed.
Print Assumptions C63_completes.

(** Non-vacuity: complete runs. *)
Definition k_show (r : outcome * st) : outcome * option dir * dir :=
  (fst r, match s_out (snd r) with Some (OSigned (OVerity (OSquash d _ _) _ _ _) _) => Some d | Some (OSigned (OSquash d _ _) _) => Some d | Some _ => Some [] | None => None end, s_root (snd r)).
Example C63_run : k_show (create_casync (k_env k_two (fun _ => false)) (k_opt false []) k_bundle (k_st [("x", Reg 4)])) =
  (Ret true false, Some [("manifest.raucm", Reg 12); ("rootfs.tar.extracted", Dir [("f", Reg 3)]); ("rootfs.tar.caidx", Reg 10); ("app.img.caibx", Reg 11)],
   [("x", Reg 4); (("arch-" ++ k_hex 5)%string, Dir [])]).
Proof. vm_compute. reflexivity. Qed.
Example C63_run_desync : k_show (create_casync (k_env k_two (fun _ => false)) (k_opt true ["appfs"]) k_bundle (k_st [])) =
  (Ret true false, Some [("manifest.raucm", Reg 11); ("app.img", Reg 2); ("rootfs.tar.extracted", Dir [("f", Reg 3)]); ("rootfs.tar.caidx", Reg 10)], []).
Proof. vm_compute. reflexivity. Qed.
Example C63_run_stays : k_show (create_casync (k_env k_two (Nat.eqb 7)) (k_opt false ["appfs"]) k_bundle (k_st [])) =
  (Ret true false, Some [("manifest.raucm", Reg 11); ("rootfs.tar", Reg 1); ("app.img", Reg 2); ("rootfs.tar.extracted", Dir [("f", Reg 3)]); ("rootfs.tar.caidx", Reg 10)],
   [(("arch-" ++ k_hex 5)%string, Dir [])]).
Proof. vm_compute. reflexivity. Qed.
Example C63_run_fails : fst (k_show (create_casync (k_env k_two (Nat.eqb 6)) (k_opt false []) k_bundle (k_st []))) = (Ret false true, None).
Proof. vm_compute. reflexivity. Qed.
Example C63_run_command :
  nth_error (rev (s_log (snd (create_casync (k_env k_two (fun _ => false)) (k_opt false []) k_bundle (k_st []))))) 6 =
  Some (KTool ["fakeroot"; "sh"; "-c";
    ("tar xf '/tmp/rauc-casync-" ++ k_hex 1 ++ "/content/rootfs.tar' -C '/tmp/arch-" ++ k_hex 5 ++ "' --numeric-owner && casync make --with=unix '/tmp/rauc-casync-"
     ++ k_hex 1 ++ "/content/rootfs.tar.caidx' '/tmp/arch-" ++ k_hex 5 ++ "' --store 'out.castr' '-v'")%string]).
Proof. vm_compute. reflexivity. Qed.
(** quoting: a name with a quote, a blank and a dollar sign is one word for sh *)
Example C63_quoted : sh_tokens (join " " (map text [PFix "tar"; PQuote "it's $HOME"; PAnd; PFix "x"])) = Some [TWord "tar"; TWord "it's $HOME"; TAnd; TWord "x"].
Proof. vm_compute. reflexivity. Qed.
Example C63_unquoted : sh_tokens "tar $HOME" = None.
Proof. vm_compute. reflexivity. Qed.
(** the hypotheses of C63_completes hold for the first run *)
Example C63_completes_met : exists m0, parse_manifest k_two = Ok m0 /\ signable (k_env k_two (fun _ => false)) (without_verity m0)
  /\ List.length (mf_images m0) = 2
  /\ (forall i f, In i (mf_images m0) -> im_filename i = Some f -> f = "rootfs.tar" \/ f = "app.img")
  /\ (forall l1 i l2 j l3 f x, mf_images m0 = l1 ++ i :: l2 ++ j :: l3 -> replaced [] i f x -> ~ replaced [] j f x)
  /\ (forall j k, j < k -> k < 0 + 5 + 3 * List.length (mf_images m0) -> k_hex j <> k_hex k)
  /\ (forall k, hex32 (Some (k_hex k)) = true).
Proof.
  eexists. split; [vm_compute; reflexivity |]. split.
  { unfold signable. cbn [without_verity mf_format bformat_eqb]. intros h sa n Hh Hs Hn Hm. unfold check_external.
    match goal with |- context [check_common ?r ?m] => replace (check_common r m) with true by (vm_compute; reflexivity) end.
    cbn [negb with_verity without_verity mf_format bformat_eqb andb mf_crypt_key mf_verity_hash mf_verity_salt mf_verity_size].
    rewrite Hh, Hs, (proj2 (N.eqb_neq _ _) Hn), (proj2 (N.eqb_eq _ _) Hm). cbn [andb negb]. eexists. vm_compute. reflexivity. }
  split; [reflexivity |]. split.
  { intros i f [<- | [<- | []]] E; injection E as <-; auto. }
  split. { intros l1 i l2 j l3 f x E (F & _) (G & _). destruct l1 as [| a [| b [| c l1]]]; cbn in E; try (destruct l2 as [| d [| g l2]]; discriminate E).
    destruct l2 as [| d [| g l2]]; try discriminate E. injection E as <- <- _. cbn in F, G. congruence.
}
  split; [intros j k L B; apply k_hex_inj; [assumption | cbn in B; lia] | apply k_hex_ok].
Qed.
