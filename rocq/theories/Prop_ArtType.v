(** C86: what the installation puts into artifact repositories of each type. *)
From Verif Require Import Base BaseLemmas ArtType ArtTypeSpec ArtTypeProofs.
Open Scope string_scope.

Theorem C86_installed_artifact_is_the_wanted_one : forall k w b dir f c methods, made w b dir f c methods -> k <> Other ->
  exists ok r, install_image k w b dir (image_of f methods) (mkR None None) = (Ok ok, r) /\
  (ok = true -> r_final r = wanted k w b dir f c /\ r_final r <> None /\ r_tmp r = None /\ fits k methods) /\
  (r_final r = None \/ r_final r = wanted k w b dir f c) /\
  (all_work w -> fits k methods -> wanted k w b dir f c <> None -> ok = true).
Proof. exact c86_install_ok. Qed.
Print Assumptions C86_installed_artifact_is_the_wanted_one.
Theorem C86_same_tree_however_converted : forall w b b' dir dir' f f' c methods methods' r r', made w b dir f c methods -> made w b' dir' f' c methods' ->
  install_image Trees w b dir (image_of f methods) (mkR None None) = (Ok true, r) ->
  install_image Trees w b' dir' (image_of f' methods') (mkR None None) = (Ok true, r') -> r_final r = r_final r'.
Proof. exact c86_same_tree_ok. Qed.
Print Assumptions C86_same_tree_however_converted.
Theorem C86_checked_manifests_do_not_crash : forall k w b dir i, k <> Other -> has_prefix "/" dir = true ->
  exists ok r, install_image k w b dir i (mkR None None) = (Ok ok, r) /\ (ok = true -> r_final r <> None).
Proof. exact c86_no_crash_ok. Qed.
Print Assumptions C86_checked_manifests_do_not_crash.
Theorem C86_files_are_copied_unchanged : forall w b dir i r, install_image Files w b dir i (mkR None None) = (Ok true, r) -> has_prefix "/" (a_file i) = false ->
  exists c, b (dir ++ "/" ++ a_file i) = Some (NFile c) /\ r_final r = Some (NFile c) /\ r_tmp r = None.
Proof. exact c86_files_ok. Qed.
Print Assumptions C86_files_are_copied_unchanged.
Theorem C86_every_type_fits_refuted : ~ (forall k w b dir f c methods, made w b dir f c methods -> k <> Other -> all_work w -> wanted k w b dir f c <> None ->
  exists r, install_image k w b dir (image_of f methods) (mkR None None) = (Ok true, r)).
Proof. exact c86_fits_all_refuted. Qed.
Print Assumptions C86_every_type_fits_refuted.

(** a bundle with an archive that is kept and extracted; the archive alone *)
Definition ex_b (p : string) : option node :=
  if String.eqb p "/b/net.tar.extracted" then Some (NDir [("etc", NDir [])]) else if String.eqb p "/b/net.tar" then Some (NFile "T") else None.
Example ex_made : made xw ex_b "/b" "net.tar" "T" (Some ["keep"; "tar-extract"]) /\ made xw ex_b "/b" "net.tar" "T" None /\ all_work xw.
Proof.
  split; [| split; [| repeat split]]; constructor; try (repeat split; discriminate); try reflexivity; intros l E; try discriminate E; injection E as <-.
  - split; [discriminate |]. intros m [<- | [<- | []]]; [right; left | left]; reflexivity.
  - intros _. exists (NDir [("etc", NDir [])]). split; reflexivity.
  - intros [H | [H | []]]; discriminate H.
Qed.
Example ex_install : install_image Trees xw ex_b "/b" (image_of "net.tar" (Some ["keep"; "tar-extract"])) (mkR None None) = (Ok true, mkR None (Some (NDir [("etc", NDir [])]))) /\
  install_image Files xw ex_b "/b" (image_of "net.tar" (Some ["keep"; "tar-extract"])) (mkR None None) = (Ok true, mkR None (Some (NFile "T"))) /\
  install_image Composefs xw ex_b "/b" (image_of "net.tar" (Some ["keep"; "tar-extract"])) (mkR None None) = (Ok false, mkR None None) /\
  install_image Trees xw xb "/b" (image_of "net.tar" (Some ["tar-extract"])) (mkR None None) = (Ok true, mkR None (Some (NDir [("etc", NDir [])]))).
Proof. repeat split; vm_compute; reflexivity. Qed.
(** without the check of the manifest a NULL pointer would be read *)
Example ex_null : install_artifact Trees xw ex_b (mkA "/b/net.tar" (Some ["keep"]) None) (mkR None None) = (Abort, mkR None None).
Proof. reflexivity. Qed.
