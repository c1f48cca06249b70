(** Property theorems for manifests (C32, C33, C34). *)
From Verif Require Import Base BaseLemmas Slot Image Handlers KeyFile EnvKey Hex HexProofs Semver Manifest ManifestSpec ManifestProofs Install ManifestCheckProofs.

(** writing and parsing a manifest gives it back (except min-rauc-version, see below) *)
Theorem C32_round_trip : forall m, manifest_ok m -> parse_manifest (prepare_manifest m) = Ok (no_min_rauc m).
Proof. exact c32_ok. Qed.
Print Assumptions C32_round_trip.
(** every parsed manifest is one the round trip applies to *)
Theorem C32_parsed : forall kf m, keyfile_wf kf -> parse_manifest kf = Ok m ->
  (forall i, In i (mf_images m) -> (im_size i = -1 \/ 0 <= im_size i)%Z /\
     (im_filename i <> None \/ im_install i = true \/ im_type i = Some "emptyfs")) ->
  (forall g, In g (mf_meta m) -> snd g <> []) ->
  manifest_ok m /\ parse_manifest (prepare_manifest m) = Ok (no_min_rauc m).
Proof. exact c32_parsed_ok. Qed.
Print Assumptions C32_parsed.
Theorem C32_min_rauc_refuted : exists m m', mf_min_rauc m = Some "1.14" /\
  parse_manifest (prepare_manifest m) = Ok m' /\ mf_min_rauc m' = None /\
  check_common "1.13" m = false /\ check_common "1.13" m' = true.
Proof. exact c32_min_rauc_refuted. Qed.
Print Assumptions C32_min_rauc_refuted.
Theorem C32_size_refuted : exists kf m i, parse_manifest kf = Ok m /\ In i (mf_images m) /\
  kf_get kf "image.rootfs" "size" = Some "9223372036854775808" /\ (im_size i < 0)%Z /\
  kf_get (prepare_manifest m) "image.rootfs" "size" = None.
Proof. exact c32_size_refuted. Qed.
Print Assumptions C32_size_refuted.

Theorem C33_plain : forall rauc m m', check_internal rauc m = Ok m' ->
  m' = with_images m (mf_images m') /\ Forall2 same_but_size (mf_images m) (mf_images m') /\
  common_safe rauc m /\
  (forall i f, In i (mf_images m') -> im_filename i = Some f -> file_image_safe i f) /\
  mf_format m = F_PLAIN /\
  (forall i, In i (mf_images m) -> im_artifact i = None /\ im_convert i = [] /\ im_converted i = []) /\
  mf_crypt_key m = None /\ mf_verity_hash m = None /\ mf_verity_salt m = None /\ mf_verity_size m = 0%N.
Proof. exact c33_plain_ok. Qed.
Print Assumptions C33_plain.
Theorem C33_external : forall rauc m m', check_external rauc m = Ok m' ->
  m' = with_images m (mf_images m') /\ Forall2 same_but_size (mf_images m) (mf_images m') /\
  common_safe rauc m /\
  (forall i f, In i (mf_images m') -> im_filename i = Some f -> file_image_safe i f) /\
  mf_format m <> F_PLAIN /\
  (exists h s, mf_verity_hash m = Some h /\ hex64 h /\ mf_verity_salt m = Some s /\ hex64 s) /\
  mf_verity_size m <> 0%N /\ (mf_verity_size m mod 4096 = 0)%N /\
  (mf_format m = F_CRYPT -> exists k, mf_crypt_key m = Some k /\ hex64 k).
Proof. exact c33_external_ok. Qed.
Print Assumptions C33_external.
(** what parsing accepts: only known sections, keys and hook names, and one image per section *)
Theorem C33_strict : forall kf m, parse_manifest kf = Ok m ->
  (forall g, In g (kf_groups kf) -> known_section g) /\
  (forall k, In k (kf_keys kf "update") -> In k ["compatible"; "version"; "description"; "build"; "min-rauc-version"]) /\
  (forall k, In k (kf_keys kf "bundle") -> k = "format" \/ (In k ["verity-hash"; "verity-salt"; "verity-size"] /\ mf_format m <> F_PLAIN) \/
                                           (k = "crypt-key" /\ mf_format m = F_CRYPT)) /\
  (forall k, In k (kf_keys kf "handler") -> In k ["filename"; "args"]) /\
  (forall k, In k (kf_keys kf "hooks") -> In k ["filename"; "hooks"]) /\
  (forall h, In h (kf_list kf "hooks" "hooks") -> h = "install-check") /\
  (mf_install_check m = true <-> In "install-check" (kf_list kf "hooks" "hooks")) /\
  (exists c, mf_compatible m = Some c /\ kf_get kf "update" "compatible" = Some c /\ c <> "") /\
  (mf_handler_args m <> None -> mf_handler m <> None) /\
  Forall2 (image_of_group kf) (filter (has_prefix "image.") (kf_groups kf)) (mf_images m).
Proof. exact c33_strict_ok. Qed.
Print Assumptions C33_strict.
Theorem C33_emptyfs_refuted :
  exists m, check_external "1.14" m = Ok m /\ In img_empty (mf_images m) /\
    (* neither checksum nor size were checked *)
    im_digest img_empty = Some "../evil" /\ (im_size img_empty < 0)%Z /\
    (* the planner selects a handler for it ... *)
    get_update_handler img_empty slot_data = Ok H_archive_to_ext4 /\
    (* ... and the checks before the installation abort the process, whatever the environment is *)
    forall ck, check_plan ck (mkPlan img_empty (TSlot slot_data H_archive_to_ext4)) = Abort.
Proof. exact c33_emptyfs_refuted. Qed.
Print Assumptions C33_emptyfs_refuted.

Theorem C34_parse : forall i, target_ok (im_class i) (im_artifact i) ->
  parse_image_name (image_group i) = (im_class i, im_artifact i, im_variant i).
Proof. exact c34_parse_ok. Qed.
Print Assumptions C34_parse.
Theorem C34_injective : forall i j,
  target_ok (im_class i) (im_artifact i) -> target_ok (im_class j) (im_artifact j) ->
  image_group i = image_group j ->
  im_class i = im_class j /\ im_artifact i = im_artifact j /\ im_variant i = im_variant j.
Proof. exact c34_inj_ok. Qed.
Print Assumptions C34_injective.
Theorem C34_total : forall g cls art var, has_prefix "image." g = true ->
  parse_image_name g = (cls, art, var) ->
  target_ok cls art /\
  g = ("image." ++ cls ++ match art with Some a => "/" ++ a | None => "" end
       ++ match var with Some v => "." ++ v | None => "" end)%string.
Proof. exact c34_total_ok. Qed.
Print Assumptions C34_total.

Definition ex_digest : string := "e3b0c44298fc1c149afbf4c8996fb92427ae41e4649b934ca495991b7852b855".
Definition ex_rootfs : image :=
  mkImage "rootfs" None (Some "v1.2") (Some ex_digest) 4096 (Some "rootfs.ext4") (Some "ext4") true true false true
    ["block-hash-index"] [] [].
Definition ex_art : image :=
  mkImage "files" (Some "a/b") None (Some ex_digest) 0 (Some "b.tar") None false false false false
    [] ["tar-extract"; "keep"] ["b.extracted"; "b.tar"].
Definition ex_mf : manifest :=
  mkManifest (Some "sys") (Some "2024.1") None (Some "b1") None F_CRYPT true (Some ex_digest) (Some ex_digest) 8192 (Some ex_digest)
    (Some "h.sh") (Some "-x") (Some "hook.sh") true [ex_rootfs; ex_art] [("ci", [("job", "7"); ("url", "http://x/;y")])].

Example ex_mf_ok : manifest_ok ex_mf.
Proof.
  constructor; cbn.
  - exists "sys". split; [reflexivity|discriminate].
  - repeat split; discriminate.
  - discriminate.
  - auto.
  - discriminate.
  - congruence.
  - reflexivity.
  - constructor; [|constructor; [|constructor]].
    + constructor.
      * repeat split; reflexivity.
      * discriminate.
      * right. cbn. lia.
      * discriminate.
      * cbn. repeat split; [discriminate|right; reflexivity|]. exists "rootfs.ext4". split; reflexivity.
      * repeat constructor.
      * left. discriminate.
    + constructor.
      * repeat split; reflexivity.
      * discriminate.
      * right. cbn. lia.
      * discriminate.
      * cbn. auto.
      * repeat constructor.
      * left. discriminate.
  - repeat constructor; cbn; intuition discriminate.
  - constructor; [|constructor]. constructor; cbn.
    + split; [reflexivity|discriminate].
    + split; [discriminate|]. repeat constructor; cbn; intuition discriminate.
    + repeat constructor; discriminate.
  - repeat constructor; cbn; tauto.
Qed.
Example ex_mf_checked : check_external "1.14" ex_mf = Ok ex_mf.
Proof. vm_compute. reflexivity. Qed.
Example ex_mf_plain :
  let i := mkImage "rootfs" None None (Some ex_digest) (-1) (Some "x.img") (Some "raw") true false true false [] [] [] in
  let m := mkManifest (Some "c") None None None None F_PLAIN false None None 0 None None None (Some "h") false [i] [] in
  exists m', check_internal "1.14" m = Ok m' /\ map im_size (mf_images m') = [0%Z].
Proof. eexists. split; [vm_compute; reflexivity|reflexivity]. Qed.
Example ex_mf_names : map image_group (mf_images ex_mf) = ["image.rootfs.v1.2"; "image.files/a/b"].
Proof. reflexivity. Qed.

Example ex_mf_strict : parse_manifest (prepare_manifest ex_mf) = Ok ex_mf
  /\ kf_list (prepare_manifest ex_mf) "image.rootfs.v1.2" "hooks" = ["pre-install"; "post-install"].
Proof. split; vm_compute; reflexivity. Qed.
