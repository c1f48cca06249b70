(** Model of "rauc convert", src/bundle.c: create_casync_bundle (:1665-1690),
    convert_to_casync_bundle (:1525-1663), casync_make_arch (:219-300), casync_make_blob (:302-387),
    extract_bundle (:2763-2804), on the file system of BundleCreate.v; [s_root] is the directory for
    temporary files (g_get_tmp_dir()).

    Simplifications: what casync reads through a symbolic link is arbitrary; effects of file names with
    a slash are not followed in the tree (the calls are in the log); the chunk store is not modelled
    beyond the creation of its directory; extraction includes the decryption of crypt bundles. *)
From Verif Require Import Base Image Handlers KeyFile EnvKey Hex Semver Manifest BundleCreate ShellWords.
From Verif Require SlotWrite.

Record copt := mkCopt {
  o_tmpdir : string;                       (* g_get_tmp_dir() *)
  o_out : string;                          (* name of the output bundle *)
  o_desync : bool;                         (* [casync] use-desync *)
  o_args : option (option (list string));  (* --casync-args: not given, not parseable, words *)
  o_ignore : list string                   (* --ignore-image *)
}.

Section Convert.
Variable e : env.
Variable o : copt.
Variable bundle : dir.                     (* the tree in the input bundle *)

(** bundle.c:1539-1544 *)
Definition store_path : string :=
  (if SlotWrite.has_suffix ".raucb" (o_out o) then stake (String.length (o_out o) - 6) (o_out o) ++ ".castr"
   else o_out o ++ ".castr")%string.

(** bundle.c:389-400 image_is_archive *)
Definition is_archive (f : string) : bool := glob "*.tar*" f || glob "*.catar" f.

(** g_dir_make_tmp: a new directory with this prefix *)
Definition make_tmp (prefix : string) : M string :=
  let* a := ask e (KTmp prefix) in
  let n := (prefix ++ a_s1 a)%string in
  let* s := get in
  match assoc n (s_root s) with
  | Some _ => fail
  | None => guard (a_ok a) ;; modify (put [n] (Some (Dir []))) ;; ret n
  end.

(** bundle.c:1555-1556, 1583, 1600 *)
Definition content_path (t name : string) : string := (o_tmpdir o ++ "/" ++ t ++ "/content/" ++ name)%string.

(** bundle.c:239-277: the words of the command for sh *)
Definition arch_pieces (idxpath imgpath tmp : string) (args : list string) : list piece :=
  [PFix "tar"; PFix "xf"; PQuote imgpath; PFix "-C"; PQuote tmp; PFix "--numeric-owner"; PAnd;
   PFix "casync"; PFix "make"; PFix "--with=unix"; PQuote idxpath; PQuote tmp; PFix "--store"; PQuote store_path]
  ++ map PQuote args.
(** bundle.c:279-286 *)
Definition arch_argv (idxpath imgpath tmp : string) (args : list string) : list string :=
  (if e_pseudo e then [] else ["fakeroot"]) ++ ["sh"; "-c"; join " " (map text (arch_pieces idxpath imgpath tmp args))].
(** bundle.c:313-370 *)
Definition blob_argv (idxpath imgpath : string) (args : list string) : list string :=
  (if o_desync o then ["desync"; "make"; "--store"; store_path; idxpath; imgpath]
   else ["casync"; "make"; idxpath; imgpath; "--store"; store_path]) ++ args.

Definition parse_args : M (list string) :=
  match o_args o with
  | None => ret []
  | Some None => fail
  | Some (Some l) => ret l
  end.

(** what a program gets to read at [name] of directory [es] *)
Definition source (es : dir) (name : string) (a : ans) (s : st) : option cont :=
  match assoc name es with
  | Some (Reg n) => Some (s_cont s n)
  | Some (Lnk _) => Some (CRaw (list_ascii_of_string (a_s1 a)))
  | _ => None
  end.

(** run casync for [f]; on success the index is a new file *)
Definition run_tool (argv : list string) (t f idx : string) : M unit :=
  let* a := ask e (KTool argv) in
  if has_char "/" f then guard (a_ok a) else
  let* s := get in
  match tget (s_root s) [t; "content"] with
  | Some (Dir es) =>
      match (if a_ok a then source es f a s else None), assoc idx es with
      | _, Some (Dir _) => fail
      | Some c, _ =>
          modify (fun s => mkSt (tput (s_root s) [t; "content"; idx] (Some (Reg (s_next s))))
                                (fun i => if Nat.eqb i (s_next s) then CCasync (is_archive f) c else s_cont s i)
                                (S (s_next s)) (s_out s) (s_fake s) (s_log s))
      | None, _ => modify (put [t; "content"; idx] (a_left a)) ;; fail
      end
  | _ => fail
  end.

(** bundle.c:302-387 casync_make_blob *)
Definition make_blob (t f idx : string) : M unit :=
  (if o_desync o then ask_ok e (KStoreDir store_path) else ret tt) ;;
  let* args := parse_args in
  run_tool (blob_argv (content_path t idx) (content_path t f) args) t f idx.
(** bundle.c:219-300 casync_make_arch *)
Definition make_arch (t f idx : string) : M unit :=
  if o_desync o then make_blob t f idx else
  let* tmp := make_tmp "arch-" in
  let* args := parse_args in
  run_tool (arch_argv (content_path t idx) (content_path t f) (o_tmpdir o ++ "/" ++ tmp)%string args) t f idx.

Definition with_filename (i : image) (f : string) : image :=
  mkImage (im_class i) (im_artifact i) (im_variant i) (im_digest i) (im_size i) (Some f) (im_type i)
    (im_type_from_ext i) (im_pre i) (im_install i) (im_post i) (im_adaptive i) (im_convert i) (im_converted i).

Definition index_name (f : string) : string := (f ++ if is_archive f then ".caidx" else ".caibx")%string.

(** bundle.c:1577-1632: one image *)
Definition convert_one (t : string) (i : image) : M image :=
  match im_filename i with
  | None => ret i
  | Some f =>
      if existsb (String.eqb (im_class i)) (o_ignore o) then ret i else
      (if is_archive f then make_arch t f (index_name f) else make_blob t f (index_name f)) ;;
      let* a := ask e (KRemove (content_path t f)) in
      (if a_ok a && negb (has_char "/" f) then modify (put [t; "content"; f] None) else ret tt) ;;  (* only a warning *)
      ret (with_filename i (index_name f))
  end.

(** bundle.c:2763-2804 extract_bundle; the directory does not exist yet *)
Definition extract (t : string) : M unit :=
  ask_ok e KPayload ;;
  let* a := ask e KExtract in
  if a_ok a then modify (put [t; "content"] (Some (Dir bundle)))
  else (modify (put [t; "content"] (a_left a)) ;; fail).

(** bundle.c:1566-1571: load_manifest_file *)
Definition load_inner (t : string) : M manifest :=
  let* s := get in
  let* a := ask e KLoad in
  match tget (s_root s) [t; "content"] with
  | Some (Dir es) =>
      match source es MF a s with
      | Some c =>
          guard (a_ok a) ;;
          match e_parse e c with
          | Some kf => match parse_manifest kf with Ok m => ret m | _ => fail end
          | None => fail
          end
      | None => fail
      end
  | _ => fail
  end.

Definition without_verity (m : manifest) : manifest :=
  mkManifest (mf_compatible m) (mf_version m) (mf_description m) (mf_build m) (mf_min_rauc m)
    (mf_format m) (mf_format_explicit m) None None 0
    (mf_crypt_key m) (mf_handler m) (mf_handler_args m) (mf_hook m) (mf_install_check m) (mf_images m) (mf_meta m).

(** bundle.c:1558-1645: up to the squashfs *)
Definition convert_content (t : string) : M manifest :=
  extract t ;;
  let* m := load_inner t in
  let m := without_verity m in
  let* l := each_image (convert_one t) (mf_images m) in
  let m := with_images m l in
  set_contents e [t; "content"; MF] (CText (prepare_manifest m)) ;;
  mksquashfs e [t; "content"] false false ;;
  ret m.

(** bundle.c:1525-1663 convert_to_casync_bundle *)
Definition convert_bundle (s : st) : fin unit * st :=
  match make_tmp "rauc-casync-" s with
  | (None, s) => (FFail, s)
  | (Some t, s) =>
      let (r, s) := match convert_content t s with
                    | (None, s) => (FFail, s)
                    | (Some m, s) => sign_bundle e m s
                    end in
      match r with
      | FAbort => (FAbort, s)
      | _ => (r, snd (rm_tree e [t] s))
      end
  end.

(** bundle.c:1665-1690 create_casync_bundle *)
Definition create_casync (s : st) : outcome * st :=
  match s_out s with
  | Some _ => (Ret false true, s)
  | None =>
      let (r, s) := match ask_ok e KPayload s with
                    | (Some _, s) => convert_bundle s
                    | (None, s) => (FFail, s)
                    end in
      match r with
      | FAbort => (Aborted, s)
      | FVal _ => (Ret true false, s)
      | FFail =>
          match s_out s with
          | None => (Ret false true, s)
          | Some _ => match ask e KUnlinkOut s with
                      | (Some a, s) => (Ret false true, if a_ok a then set_out None s else s)
                      | (None, s) => (Ret false true, s)
                      end
          end
      end
  end.

End Convert.
