(** Vocabulary for C62: what a directory tree shows, with and without following symbolic links. *)
From Verif Require Import Base KeyFile Image Manifest BundleCreate.

Inductive kind := KFile (i : nat) | KLink (t : string) | KDir.

(** [shows es p k]: in the tree [es] itself, path [p] is a file (with this inode), a symbolic link or
    a directory *)
Inductive shows : dir -> list string -> kind -> Prop :=
| sh_file es n i : In (n, Reg i) es -> shows es [n] (KFile i)
| sh_link es n t : In (n, Lnk t) es -> shows es [n] (KLink t)
| sh_dir es n d : In (n, Dir d) es -> shows es [n] KDir
| sh_sub es n d p k : In (n, Dir d) es -> shows d p k -> shows es (n :: p) k.

(** [leads up es t j d u]: the text [t] of a symbolic link in directory [es] (with ancestors [up])
    names, through [j] further links, the directory [d] with ancestors [u]; the working directory is
    not counted *)
Inductive leads : list dir -> dir -> string -> nat -> dir -> list dir -> Prop :=
| ld_dot up es : leads up es "." 0 es up
| ld_up p up es : leads (p :: up) es ".." 0 p up
| ld_top es : leads [] es ".." 0 es []
| ld_dir up es n d : n <> "." -> n <> ".." -> n <> ".rauc-workdir" -> assoc n es = Some (Dir d) ->
    leads up es n 0 d (es :: up)
| ld_link up es n t j d u : n <> "." -> n <> ".." -> n <> ".rauc-workdir" -> assoc n es = Some (Lnk t) ->
    leads up es t j d u -> leads up es n (S j) d u.

(** [sees b up es p k]: what is at path [p] of directory [es] for someone who takes links to
    directories for directories, follows at most [b] links, and does not look at ".rauc-workdir" *)
Inductive sees : nat -> list dir -> dir -> list string -> kind -> Prop :=
| se_file b up es n i : In (n, Reg i) es -> n <> ".rauc-workdir" -> sees b up es [n] (KFile i)
| se_link b up es n t : In (n, Lnk t) es -> n <> ".rauc-workdir" ->
    (forall j d u, leads up es t j d u -> b <= j) -> sees b up es [n] (KLink t)
| se_dir b up es n d : In (n, Dir d) es -> n <> ".rauc-workdir" -> sees b up es [n] KDir
| se_sub b up es n d p k : In (n, Dir d) es -> n <> ".rauc-workdir" ->
    sees b (es :: up) d p k -> sees b up es (n :: p) k
| se_ldir b up es n t j d u : In (n, Lnk t) es -> n <> ".rauc-workdir" -> leads up es t j d u -> j < b ->
    sees b up es [n] KDir
| se_lsub b up es n t j d u p k : In (n, Lnk t) es -> n <> ".rauc-workdir" -> leads up es t j d u -> j < b ->
    sees (b - S j) u d p k -> sees b up es (n :: p) k.

(** the tree without entries named ".rauc-workdir" *)
Fixpoint without_wd (n : node) : node :=
  match n with
  | Dir es => Dir ((fix f (l : dir) := match l with
                                      | [] => []
                                      | (x, c) :: r => if String.eqb x ".rauc-workdir" then f r else (x, without_wd c) :: f r
                                      end) es)
  | _ => n
  end.

(** no symbolic link in the tree leads to a directory: no link at all, or only to files *)
Inductive no_links : node -> Prop :=
| nl_reg i : no_links (Reg i)
| nl_oth : no_links Oth
| nl_dir es : (forall n c, In (n, c) es -> no_links c) -> no_links (Dir es).

(** no symbolic link in the tree has this text *)
Inductive no_link_to (t : string) : node -> Prop :=
| nt_reg i : no_link_to t (Reg i)
| nt_oth : no_link_to t Oth
| nt_lnk x : x <> t -> no_link_to t (Lnk x)
| nt_dir es : (forall n c, In (n, c) es -> no_link_to t c) -> no_link_to t (Dir es).

(** inode [i] is the file at path [p] of the content directory *)
Definition input_file (s : st) (p : list string) (i : nat) : Prop := tget (s_root s) p = Some (Reg i).

(** files of the content directory have inodes already in use *)
Definition inodes_ok (s : st) : Prop := forall p i, shows (s_root s) p (KFile i) -> i < s_next s.

(** the squashfs inside an output file *)
Fixpoint payload (o : outc) : option (dir * (nat -> cont) * bool) :=
  match o with
  | OJunk _ => None
  | OSquash d c meta => Some (d, c, meta)
  | OEnc o _ => payload o
  | OVerity o _ _ _ => payload o
  | OSigned o _ => payload o
  end.

(** the layers of a finished bundle of this format for this manifest *)
Definition layers (f : bformat) (d : dir) (c : nat -> cont) (meta : bool) (m : manifest) (o : outc) : Prop :=
  match f with
  | F_PLAIN => o = OSigned (OSquash d c meta) m
  | F_VERITY => exists h s n, mf_verity_hash m = Some h /\ mf_verity_salt m = Some s /\ mf_verity_size m = n
                              /\ o = OSigned (OVerity (OSquash d c meta) h s n) m
  | F_CRYPT => exists h s n k, mf_verity_hash m = Some h /\ mf_verity_salt m = Some s /\ mf_verity_size m = n
                               /\ mf_crypt_key m = Some k
                               /\ o = OSigned (OVerity (OEnc (OSquash d c meta) k) h s n) m
  end.

(** top-level names which bundle creation may add, replace or remove *)
Definition touched_by (i : image) : list string :=
  match im_filename i with
  | None => []
  | Some f => (if existsb (String.eqb "block-hash-index") (im_adaptive i) then [(f ++ ".block-hash-index")%string] else [])
              ++ (if existsb (String.eqb "tar-extract") (im_convert i) || existsb (String.eqb "composefs") (im_convert i)
                  then [(f ++ ".extracted")%string] else [])
              ++ (if existsb (String.eqb "composefs") (im_convert i) then [(f ++ ".cfs")%string; ".rauc-cfs-store"] else [])
  end.
(** ... and the image itself if it is converted and not kept; [kf] is the input manifest *)
Definition dropped_by (kf : keyfile) (i : image) : list string :=
  match im_filename i, kf_get kf (image_group i) "convert" with
  | Some f, Some _ => if existsb (String.eqb "keep") (im_convert i) then [] else [f]
  | _, _ => []
  end.
Definition touched (kf : keyfile) (m : manifest) : list string :=
  "manifest.raucm" :: flat_map (fun i => touched_by i ++ dropped_by kf i) (mf_images m).

(** the entries bundle creation accepts: no devices or the like, no symbolic link with a slash, and at
    the top no directory whose name starts with a dot *)
Definition allowed (top : bool) (n : string) (c : node) : Prop :=
  match c with
  | Reg _ => True
  | Dir _ => top = true -> has_prefix "." n = false
  | Lnk t => has_char "/" t = false
  | Oth => False
  end.
(** [reached b up es top p d]: directory [d] is visited at path [p]; [top]: it is [es] itself *)
Inductive reached : nat -> list dir -> dir -> list string -> dir -> Prop :=
| re_here b up es : reached b up es [] es
| re_sub b up es n d p x : In (n, Dir d) es -> n <> ".rauc-workdir" -> reached b (es :: up) d p x -> reached b up es (n :: p) x
| re_link b up es n t j d u p x : In (n, Lnk t) es -> n <> ".rauc-workdir" -> leads up es t j d u -> j < b ->
    reached (b - S j) u d p x -> reached b up es (n :: p) x.

(** the names of the outputs for a list of conversion methods *)
Definition output_names (f : string) (methods : list string) : list string :=
  map (fun m => if String.eqb m "tar-extract" then (f ++ ".extracted")%string
                else if String.eqb m "composefs" then (f ++ ".cfs")%string else f) methods.

(** [i'] is how input image [i] appears in the manifest of the bundle made from [s] *)
Definition described (e : env) (s : st) (kf : keyfile) (i i' : image) : Prop :=
  im_class i' = im_class i /\ im_artifact i' = im_artifact i /\ im_variant i' = im_variant i
  /\ im_filename i' = im_filename i /\ im_type i' = im_type i /\ im_pre i' = im_pre i /\ im_install i' = im_install i
  /\ im_post i' = im_post i /\ im_adaptive i' = im_adaptive i /\ im_convert i' = im_convert i
  /\ match im_filename i with
     | None => im_size i' = (-1)%Z /\ im_digest i' = None
     | Some f => im_digest i' <> None /\ (0 <= im_size i')%Z /\
                 forall n, assoc f (s_root s) = Some (Reg n) ->
                   im_digest i' = Some (e_sha e (s_cont s n)) /\ im_size i' = Z.of_N (e_size e (s_cont s n))
     end
  /\ im_converted i' = match kf_get kf (image_group i) "convert", im_filename i with
                       | Some _, Some f => output_names f (im_convert i)
                       | _, _ => []
                       end.

(** everything but the images and what format-specific steps add *)
Definition same_header (m m' : manifest) : Prop :=
  mf_compatible m' = mf_compatible m /\ mf_version m' = mf_version m /\ mf_description m' = mf_description m
  /\ mf_build m' = mf_build m /\ mf_min_rauc m' = mf_min_rauc m /\ mf_format m' = mf_format m
  /\ mf_handler m' = mf_handler m /\ mf_handler_args m' = mf_handler_args m /\ mf_hook m' = mf_hook m
  /\ mf_install_check m' = mf_install_check m /\ mf_meta m' = mf_meta m.
