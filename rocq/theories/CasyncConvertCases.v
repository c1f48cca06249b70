(** Proofs for C63: refutations. *)
From Verif Require Import Base BaseLemmas KeyFile KeyFileLemmas Image Manifest BundleCreate BundleCreateSpec ShellWords CasyncConvert CasyncConvertSpec
  CasyncConvertProofs CasyncConvertRun CasyncConvertEnd CasyncConvertDone CasyncConvertTmp CasyncConvertCmd CasyncConvertLive.
From Verif Require BundleCreateCases.

Definition hexd (n : nat) : ascii := nth n (list_ascii_of_string "0123456789abcdef") "0"%char.
Definition k_hex (n : nat) : string := (stake 62 BundleCreateCases.hex64 ++ String (hexd (Nat.modulo (Nat.div n 16) 16)) (String (hexd (Nat.modulo n 16)) EmptyString))%string.
Definition k_env (kf : keyfile) (fails : nat -> bool) : env :=
  mkEnv 40 [] (fun _ => true) (fun c => match c with CRaw [] => Some kf | _ => None end) (fun _ => BundleCreateCases.hex64) (fun _ => 1024%N)
    (fun n => mkAns (negb (fails n)) (Some (Dir [])) (Some (OJunk [])) (k_hex n) BundleCreateCases.hex64 8192) false true true "1.15".
Definition k_img (f : string) (more : list (string * string)) : list (string * string) :=
  [("sha256", BundleCreateCases.hex64); ("size", "1024"); ("filename", f)] ++ more.
Definition k_kf (fmt : string) (images : keyfile) : keyfile :=
  [("update", [("compatible", "c")]); ("bundle", [("format", fmt)])] ++ images.
Definition k_opt (desync : bool) (ig : list string) : copt := mkCopt "/tmp" "out.raucb" desync (Some (Some ["-v"])) ig.
Definition k_st (root : dir) : st := mkSt root (fun i => match i with 0 => CRaw [] | _ => CRaw [ascii_of_nat i] end) 10 None false [].
Definition k_bundle : dir := [("manifest.raucm", Reg 0); ("rootfs.tar", Reg 1); ("app.img", Reg 2); ("rootfs.tar.extracted", Dir [("f", Reg 3)])].
Definition k_two : keyfile := k_kf "verity" [("image.rootfs", k_img "rootfs.tar" []); ("image.appfs", k_img "app.img" [])].
Definition k_shared : keyfile := k_kf "verity" [("image.rootfs", k_img "app.img" []); ("image.appfs", k_img "app.img" [])].
Definition k_keep : keyfile := k_kf "verity" [("image.rootfs", k_img "rootfs.tar" [("convert", "keep;tar-extract"); ("converted", "rootfs.tar;rootfs.tar.extracted")])].
Definition k_out : keyfile := k_kf "verity" [("image.rootfs", k_img "../../victim.img" [])].

Lemma k_hex_ok : forall n, hex32 (Some (k_hex n)) = true.
Proof.
  intro n. unfold k_hex. assert (A : Nat.modulo (Nat.div n 16) 16 < 16) by (apply Nat.mod_upper_bound; discriminate). assert (B : Nat.modulo n 16 < 16) by (apply Nat.mod_upper_bound; discriminate).
  revert A B. generalize (Nat.modulo (Nat.div n 16) 16) as a, (Nat.modulo n 16) as b. intros a b A B.
  do 16 (destruct a as [| a]; [do 16 (destruct b as [| b]; [vm_compute; reflexivity |]); lia |]). lia.
Qed.
Lemma k_hex_inj : forall j k, j < k -> k < 256 -> k_hex j <> k_hex k.
Proof.
  intros j k L B E. unfold k_hex in E. apply app_inj_s in E.
  assert (E1 : hexd (Nat.modulo (Nat.div j 16) 16) = hexd (Nat.modulo (Nat.div k 16) 16)) by (apply (f_equal (fun s => match s with String c _ => c | _ => "0"%char end)) in E; exact E).
  assert (E2 : hexd (Nat.modulo j 16) = hexd (Nat.modulo k 16)) by (apply (f_equal (fun s => match s with String _ (String c _) => c | _ => "0"%char end)) in E; exact E).
  assert (H : forall a b, a < 16 -> b < 16 -> hexd a = hexd b -> a = b).
  { intros a b A1 B1. do 16 (destruct a as [| a]; [do 16 (destruct b as [| b]; [first [reflexivity | discriminate] |]); lia |]). lia. }
  apply H in E1; [| apply Nat.mod_upper_bound; discriminate | apply Nat.mod_upper_bound; discriminate]. apply H in E2; [| apply Nat.mod_upper_bound; discriminate | apply Nat.mod_upper_bound; discriminate].
  rewrite !(Nat.mod_small (_ / 16)) in E1 by (apply Nat.div_lt_upper_bound; lia).
  assert (X := Nat.div_mod j 16 ltac:(discriminate)). assert (Y := Nat.div_mod k 16 ltac:(discriminate)). lia.
Qed.

(** a successful conversion of an archive leaves something in the directory for temporary files *)
Lemma c63_nothing_left_refuted :
  ~ forall e o b s s' n, (forall k, a_ok (e_ans e k) = true) -> s_out s = None -> create_casync e o b s = (Ret true false, s') ->
      assoc n (s_root s') = assoc n (s_root s).
Proof.
  intro H. destruct (create_casync (k_env k_two (fun _ => false)) (k_opt false []) k_bundle (k_st [])) as [r s'] eqn:E.
  assert (X : r = Ret true false /\ assoc ("arch-" ++ k_hex 5)%string (s_root s') <> None) by (vm_compute in E; injection E as <- <-; split; [reflexivity | vm_compute; discriminate]).
  destruct X as [-> X]. apply X. rewrite (H (k_env k_two (fun _ => false)) _ _ (k_st []) _ ("arch-" ++ k_hex 5)%string (fun _ => eq_refl) eq_refl E). reflexivity.
Qed.

(** two images with the same file: valid input, nothing fails, but no conversion *)
Lemma c63_shared_refuted :
  ~ forall e o b s n kf m0,
  (forall k, a_ok (e_ans e k) = true) ->
  (forall k, hex32 (Some (a_s1 (e_ans e k))) = true /\ hex32 (Some (a_s2 (e_ans e k))) = true
             /\ (a_n (e_ans e k) <> 0)%N /\ (a_n (e_ans e k) mod 4096 = 0)%N) ->
  (forall j k, j < k -> k < List.length (s_log s) + 5 + 3 * List.length (mf_images m0) -> a_s1 (e_ans e j) <> a_s1 (e_ans e k)) ->
  (forall k, assoc ("rauc-casync-" ++ a_s1 (e_ans e k)) (s_root s) = None /\ assoc ("arch-" ++ a_s1 (e_ans e k)) (s_root s) = None)%string ->
  s_out s = None -> o_args o <> Some None ->
  assoc "manifest.raucm" b = Some (Reg n) -> e_parse e (s_cont s n) = Some kf -> parse_manifest kf = Ok m0 -> signable e (without_verity m0) ->
  (forall i f, In i (mf_images m0) -> im_filename i = Some f -> has_char "/" f = false) ->
  (forall i f x, In i (mf_images m0) -> replaced (o_ignore o) i f x -> (exists k, assoc f b = Some (Reg k)) /\ forall q, assoc x b <> Some (Dir q)) ->
  (forall i f x j g y, In i (mf_images m0) -> In j (mf_images m0) -> replaced (o_ignore o) i f x -> replaced (o_ignore o) j g y -> f <> y) ->
  fst (create_casync e o b s) = Ret true false.
Proof.
  intro H.
  assert (PM : exists m0, parse_manifest k_shared = Ok m0 /\ List.length (mf_images m0) = 2 /\ forall i, In i (mf_images m0) -> im_filename i = Some "app.img").
  { eexists. split; [vm_compute; reflexivity |]. split; [reflexivity |]. intros i [<- | [<- | []]]; reflexivity. }
  destruct PM as (m0 & PM & LN & FN).
  assert (X : fst (create_casync (k_env k_shared (fun _ => false)) (k_opt false []) k_bundle (k_st [])) = Ret false true) by (vm_compute; reflexivity).
  rewrite (H (k_env k_shared (fun _ => false)) (k_opt false []) k_bundle (k_st []) 0 k_shared m0) in X; [discriminate X | ..].
  - reflexivity.
  - intro k. split; [apply k_hex_ok |]. split; [vm_compute; reflexivity |]. split; [discriminate | reflexivity].
  - intros j k L B. rewrite LN in B. apply k_hex_inj; [assumption | cbn in B; lia].
  - split; reflexivity.
  - reflexivity.
  - discriminate.
  - reflexivity.
  - reflexivity.
  - exact PM.
  - vm_compute in PM. apply Ok_inj in PM. subst m0. unfold signable. cbn [without_verity mf_format bformat_eqb]. intros h sa n Hh Hs Hn Hm.
    unfold check_external.
    match goal with |- context [check_common ?r ?m] => replace (check_common r m) with true by (vm_compute; reflexivity) end. cbn [negb with_verity without_verity mf_format bformat_eqb andb mf_crypt_key mf_verity_hash mf_verity_salt mf_verity_size].
    rewrite Hh, Hs, (proj2 (N.eqb_neq _ _) Hn), (proj2 (N.eqb_eq _ _) Hm). cbn [andb negb]. eexists. vm_compute. reflexivity.
  - intros i f I F. rewrite (FN i I) in F. injection F as <-. reflexivity.
  - intros i f x I (F & _ & IX). rewrite (FN i I) in F. injection F as <-. apply index_name_for in IX. subst x. split; [eexists; reflexivity |]. intros q. vm_compute. discriminate.
  - intros i f x j g y I J (F & _ & _) (G & _ & IY). rewrite (FN i I) in F. rewrite (FN j J) in G. injection F as <-. injection G as <-. apply index_name_for in IY. subst y. vm_compute. discriminate.
Qed.

Fixpoint slashes (s : string) : nat := match s with EmptyString => 0 | String c r => (if Ascii.eqb c "/" then 1 else 0) + slashes r end.
Lemma slashes_app : forall a b, slashes (a ++ b)%string = slashes a + slashes b.
Proof. induction a as [| c a IH]; intro b; [reflexivity |]. cbn [append slashes]. rewrite IH. lia. Qed.
Lemma no_slashes : forall s, has_char "/" s = false -> slashes s = 0.
Proof.
  induction s as [| c s IH]; intro H; [reflexivity |]. unfold has_char in *. cbn [all_chars] in H. apply negb_false_iff, andb_prop in H as [A B].
  cbn [slashes]. destruct (Ascii.eqb c "/"); [discriminate |]. apply IH. rewrite B. reflexivity.
Qed.

(** names in the inner manifest are used before they are checked: the file to be removed can be
    outside of the unpacked bundle *)
Lemma c63_removes_inside_refuted :
  ~ forall e o b s r s' p, s_out s = None -> s_log s = [] -> create_casync e o b s = (r, s') -> In (KRemove p) (s_log s') ->
      exists t f, has_char "/" t = false /\ has_char "/" f = false /\ p = (o_tmpdir o ++ "/" ++ t ++ "/content/" ++ f)%string.
Proof.
  intro H. destruct (create_casync (k_env k_out (fun _ => false)) (k_opt false []) k_bundle (k_st [])) as [r s'] eqn:E.
  assert (X : In (KRemove ("/tmp/rauc-casync-" ++ k_hex 1 ++ "/content/../../victim.img")%string) (s_log s')).
  { vm_compute in E. injection E as _ <-. vm_compute. tauto. }
  destruct (H _ _ _ (k_st []) _ _ _ eq_refl eq_refl E X) as (t & f & T & F & P). apply (f_equal slashes) in P. cbn [o_tmpdir k_opt] in P.
  rewrite !slashes_app, (no_slashes t T), (no_slashes f F) in P. vm_compute in P. discriminate.
Qed.

(** files listed as "converted" can be gone in the new bundle *)
Lemma c63_converted_refuted :
  ~ forall e o b s s' n0 kf m0 d c m out i f, s_out s = None -> create_casync e o b s = (Ret true false, s') ->
      assoc "manifest.raucm" b = Some (Reg n0) -> e_parse e (s_cont s n0) = Some kf -> parse_manifest kf = Ok m0 ->
      (forall i f, In i (mf_images m0) -> In f (im_converted i) -> assoc f b <> None) ->
      s_out s' = Some out -> sealed (mf_format m) d c m out -> In i (mf_images m) -> In f (im_converted i) -> assoc f d <> None.
Proof.
  intro H. destruct (create_casync (k_env k_keep (fun _ => false)) (k_opt false []) k_bundle (k_st [])) as [r s'] eqn:E.
  assert (PM : exists m0, parse_manifest k_keep = Ok m0 /\ forall i f, In i (mf_images m0) -> In f (im_converted i) -> assoc f k_bundle <> None).
  { eexists. split; [vm_compute; reflexivity |]. intros i f [<- | []] [<- | [<- | []]]; vm_compute; discriminate. }
  destruct PM as (m0 & PM & CV).
  assert (X : r = Ret true false /\ exists d c m out i, s_out s' = Some out /\ sealed (mf_format m) d c m out /\ In i (mf_images m) /\ In "rootfs.tar" (im_converted i) /\ assoc "rootfs.tar" d = None).
  { vm_compute in E. injection E as <- <-. split; [reflexivity |].
    match goal with |- context [OSigned (OVerity (OSquash ?d ?c false) ?h ?sa ?n) ?m] => exists d, c, m, (OSigned (OVerity (OSquash d c false) h sa n) m); eexists end.
    split; [reflexivity |]. split; [unfold sealed; cbn [mf_format]; eexists _, _, _; split; [reflexivity |]; split; [reflexivity |]; split; reflexivity |].
    split; [left; reflexivity |]. split; [left; reflexivity | reflexivity]. }
  destruct X as (-> & d & c & m & out & i & O & SE & I & F & A).
  exact (H (k_env k_keep (fun _ => false)) _ k_bundle (k_st []) s' 0 k_keep m0 d c m out i "rootfs.tar" eq_refl E eq_refl eq_refl PM CV O SE I F A).
Qed.
