(** Model of bundle creation, src/bundle.c: create_bundle (:1294-1417) and what it calls -
    prepare_workdir, link_contentdir_to_workdir, check_workdir_content (:1106-1254), needs_fakeroot
    (:1256-1292), generate_adaptive_data (:402-472), convert_images (:474-662), mksquashfs (:109-166),
    encrypt_bundle_payload (:1002-1049), sign_bundle (:960-988) - with sync_manifest_with_contentdir
    (src/manifest.c:1355-1422), check_manifest_input (:714-772), r_fakeroot_init/cleanup and
    r_tempfile_cleanup (src/utils.c:855-925).

    The file system is a tree of names with inodes: hard links share an inode, so that a write through
    the working directory would be seen in the content directory.  Outcomes of system calls and tools
    are arbitrary (an oracle); a tool that fails may leave anything behind in what it was told to write.
    Not modelled: permissions, progress steps and messages, and the bytes of squashfs, CMS and dm-verity. *)
From Verif Require Import Base Image Handlers KeyFile EnvKey Hex Semver Manifest.

Inductive node :=
| Reg (i : nat)                       (* regular file: inode *)
| Dir (es : list (string * node))
| Lnk (t : string)                    (* symbolic link *)
| Oth.                                (* device, fifo, socket *)
Definition dir := list (string * node).

(** contents of a file: bytes, a manifest written by RAUC, a block hash index of some contents, a
    casync index from which these contents (as an archive: the tree in it) can be restored *)
Inductive cont := CRaw (b : bytes) | CText (kf : keyfile) | CIndex (c : cont) | CCasync (arch : bool) (c : cont).

(** what the output file holds *)
Inductive outc :=
| OJunk (b : bytes)                                    (* left by a step that failed *)
| OSquash (d : dir) (c : nat -> cont) (meta : bool)    (* squashfs of this tree; with ownership and xattrs? *)
| OEnc (o : outc) (key : string)
| OVerity (o : outc) (hash salt : string) (size : N)
| OSigned (o : outc) (m : manifest).

Definition WD : string := ".rauc-workdir".
Definition MF : string := "manifest.raucm".

(** ** reading directories through symbolic links *)

Inductive followed := FNone | FFile (i : nat) | FDir (es : dir) (up : list dir) (b : nat) | FOth | FWork.

(** path_resolution(7) of one component [name] in directory [es] with ancestors [up] (parent
    first); [b]: symbolic links that may still be followed (ELOOP beyond).  A link to a directory named
    ".rauc-workdir" is reported as [FWork]: in the content directory that is the directory being filled. *)
Fixpoint follow (b : nat) (up : list dir) (es : dir) (name : string) : followed :=
  if String.eqb name "." then FDir es up b
  else if String.eqb name ".." then match up with p :: u => FDir p u b | [] => FDir es [] b end
  else if String.eqb name WD then FWork
  else match assoc name es with
       | Some (Lnk t) => match b with O => FNone | S b' => follow b' up es t end
       | Some (Dir d) => FDir d (es :: up) b
       | Some (Reg i) => FFile i
       | Some Oth => FOth
       | None => FNone
       end.

(** bundle.c:1106-1158 check_workdir_content *)
Definition content_ok (top : bool) (name : string) (n : node) : bool :=
  match n with
  | Lnk t => negb (has_prefix "/" t) && negb (has_char "/" t)
  | Dir _ => negb (top && has_prefix "." name)
  | Reg _ => true
  | Oth => false
  end.

(** bundle.c:1160-1215 link_contentdir_to_workdir: whether it succeeds and what is in the working
    directory then.  [ok p]: stat, mkdir or link succeed for the entry at path [p].  G_FILE_TEST_IS_DIR
    follows symbolic links, so a link to a directory becomes a directory; a link to the working directory
    itself would be copied into itself until the path is too long, which fails.  [d] > [b] bounds the
    recursion through links. *)
Fixpoint link_any (ok : list string -> bool) (d : nat) {struct d}
  : nat -> list dir -> bool -> list string -> node -> bool * dir :=
  fix go (b : nat) (up : list dir) (top : bool) (path : list string) (n : node) {struct n} : bool * dir :=
    match n with
    | Dir es =>
        (fix each (l : dir) : bool * dir :=
           match l with
           | [] => (true, [])
           | (name, c) :: r =>
               if String.eqb name WD then each r else
               if negb (content_ok top name c) then (false, []) else
               let p := path ++ [name] in
               let sub (x : bool * dir) :=
                 if fst x then (fst (each r), (name, Dir (snd x)) :: snd (each r)) else (false, [(name, Dir (snd x))]) in
               let one := if ok p then (fst (each r), (name, c) :: snd (each r)) else (false, []) in
               match c with
               | Dir _ => if ok p then sub (go b (es :: up) false p c) else (false, [])
               | Lnk t =>
                   match (match b with O => FNone | S b' => follow b' up es t end) with
                   | FDir es' up' b' =>
                       match d with
                       | O => (false, [])
                       | S d' => if ok p then sub (link_any ok d' b' up' false p (Dir es')) else (false, [])
                       end
                   | FWork => (false, [])
                   | _ => one
                   end
               | _ => one
               end
           end) es
    | _ => (true, [])
    end.

(** ** the world *)

(** one call whose outcome is not determined by the model; [fake]: run under fakeroot *)
Inductive call :=
| KStat                                             (* g_file_test(EXISTS) of a symbolic link *)
| KRmTree (p : list string)
| KMkdir (p : list string)
| KLoad                                             (* reading and parsing manifest.raucm *)
| KRead (p : list string)                           (* reading an image *)
| KWrite (p : list string)
| KFakeInit | KFakeRm
| KTar (file dest : list string) (fake : bool)
| KComposefs (src dest store : list string) (fake : bool)
| KUnlink (p : list string)
| KSquash (src : list string) (meta fake : bool)
| KEncrypt | KVerityOpen | KVerity | KSign
| KUnlinkOut
(* only used by the conversion to casync bundles (CasyncConvert.v) *)
| KTmp (prefix : string)                            (* g_dir_make_tmp *)
| KPayload | KExtract                               (* check_bundle_payload, unsquashfs *)
| KTool (argv : list string)                        (* casync, desync *)
| KStoreDir (p : string)
| KRemove (p : string).                             (* g_remove, by path name *)

Record ans := mkAns {
  a_ok : bool;
  a_left : option node;         (* what a failed (or tool) call leaves at its target *)
  a_out : option outc;          (* what a failed call leaves as output file *)
  a_s1 : string; a_s2 : string; a_n : N   (* verity hash and salt, size; key *)
}.

Record env := mkEnv {
  e_max : nat;                            (* symbolic links followed in one path (40) *)
  e_up : list dir;                        (* the directories above the content directory *)
  e_link : list string -> bool;           (* stat/mkdir/link of the entry at this path succeed *)
  e_parse : cont -> option keyfile;       (* GKeyFile parser *)
  e_sha : cont -> string;
  e_size : cont -> N;
  e_ans : nat -> ans;                     (* the answer to the n-th call *)
  e_pseudo : bool; e_root : bool;         (* check_pseudo_active(), geteuid() == 0 *)
  e_composefs : bool;                     (* ENABLE_COMPOSEFS *)
  e_rauc : string                         (* RAUC_MESON_VERSION *)
}.

Record st := mkSt {
  s_root : dir;                 (* the content directory *)
  s_cont : nat -> cont;         (* contents of inodes *)
  s_next : nat;                 (* first inode never used *)
  s_out : option outc;          (* the output file *)
  s_fake : bool;                (* the fakeroot state directory exists *)
  s_log : list call             (* calls made, newest first *)
}.

Fixpoint tget (es : dir) (p : list string) : option node :=
  match p with
  | [] => Some (Dir es)
  | n :: p' => match assoc n es with
               | Some (Dir d) => tget d p'
               | Some x => match p' with [] => Some x | _ => None end
               | None => None
               end
  end.
(** put [x] at path [p], or remove what is there *)
Fixpoint tput (es : dir) (p : list string) (x : option node) : dir :=
  match p with
  | [] => es
  | n :: p' =>
      match p' with
      | [] => match x with Some y => assoc_set n y es | None => assoc_remove n es end
      | _ => match assoc n es with Some (Dir d) => assoc_set n (Dir (tput d p' x)) es | _ => es end
      end
  end.

Definition set_root (r : dir) (s : st) : st := mkSt r (s_cont s) (s_next s) (s_out s) (s_fake s) (s_log s).
Definition set_out (o : option outc) (s : st) : st := mkSt (s_root s) (s_cont s) (s_next s) o (s_fake s) (s_log s).
Definition set_fake (b : bool) (s : st) : st := mkSt (s_root s) (s_cont s) (s_next s) (s_out s) b (s_log s).
Definition put (p : list string) (x : option node) (s : st) : st := set_root (tput (s_root s) p x) s.

(** computations that can fail *)
Definition M (A : Type) := st -> option A * st.
Definition ret {A} (x : A) : M A := fun s => (Some x, s).
Definition fail {A} : M A := fun s => (None, s).
Definition mbind {A B} (m : M A) (f : A -> M B) : M B :=
  fun s => match m s with (Some x, s') => f x s' | (None, s') => (None, s') end.
Notation "'let*' x := m 'in' k" := (mbind m (fun x => k)) (at level 200, x name, right associativity).
Notation "m ;; k" := (mbind m (fun _ => k)) (at level 60, right associativity).
Definition guard (b : bool) : M unit := if b then ret tt else fail.
Definition get : M st := fun s => (Some s, s).
Definition modify (f : st -> st) : M unit := fun s => (Some tt, f s).

Section Run.
Variable e : env.

(** make call [k] and take the answer *)
Definition ask (k : call) : M ans :=
  fun s => (Some (e_ans e (List.length (s_log s))),
            mkSt (s_root s) (s_cont s) (s_next s) (s_out s) (s_fake s) (k :: s_log s)).
Definition ask_ok (k : call) : M unit := let* a := ask k in guard (a_ok a).

(** utils.c:219-233 rm_tree; a failure leaves part of the tree *)
Definition rm_tree (p : list string) : M unit :=
  let* a := ask (KRmTree p) in
  if a_ok a then modify (put p None) else (modify (put p (a_left a)) ;; fail).

Definition mkdir (p : list string) : M unit :=
  let* s := get in
  match tget (s_root s) p with
  | Some _ => fail                                      (* EEXIST *)
  | None => ask_ok (KMkdir p) ;; modify (put p (Some (Dir [])))
  end.

(** g_file_set_contents: a temporary file is renamed over [p]: a new inode *)
Definition set_contents (p : list string) (c : cont) : M unit :=
  let* s := get in
  match tget (s_root s) p with
  | Some (Dir _) => fail
  | _ => ask_ok (KWrite p) ;;
         modify (fun s => mkSt (tput (s_root s) p (Some (Reg (s_next s))))
                               (fun i => if Nat.eqb i (s_next s) then c else s_cont s i)
                               (S (s_next s)) (s_out s) (s_fake s) (s_log s))
  end.

(** the inode opened for "<dir>/<name>"; [dir] is a directory below the content directory *)
Definition open_in (d : list string) (name : string) (s : st) : option nat :=
  match tget (s_root s) d with
  | Some (Dir es) =>
      match follow (e_max e) (s_root s :: e_up e) es name with FFile i => Some i | _ => None end
  | _ => None
  end.
(** g_file_test(G_FILE_TEST_EXISTS) *)
Definition exists_in (d : list string) (name : string) (s : st) : bool :=
  match tget (s_root s) d with
  | Some (Dir es) => match follow (e_max e) (s_root s :: e_up e) es name with FNone => false | _ => true end
  | _ => false
  end.

(** bundle.c:1217-1254 prepare_workdir: the path of the working directory *)
Definition prepare_workdir : M (list string) :=
  let wd := [WD] in
  let* s := get in
  (match tget (s_root s) wd with
   | Some (Lnk _) => let* a := ask KStat in if a_ok a then rm_tree wd else ret tt   (* dangling? *)
   | Some _ => rm_tree wd
   | None => ret tt
   end) ;;
  mkdir wd ;;
  let* s := get in
  let (ok, es) := link_any (e_link e) (S (e_max e)) (e_max e) (e_up e) true [] (Dir (s_root s)) in
  modify (put wd (Some (Dir es))) ;;
  guard ok ;;
  ret wd.

(** manifest.c:468-500 load_manifest_file, of [dir]/manifest.raucm *)
Definition load_manifest (d : list string) : M (keyfile * manifest) :=
  let* s := get in
  match open_in d MF s with
  | None => fail
  | Some i =>
      ask_ok KLoad ;;
      match e_parse e (s_cont s i) with
      | None => fail
      | Some kf => match parse_manifest kf with Ok m => ret (kf, m) | _ => fail end
      end
  end.

(** manifest.c:714-772 check_manifest_input *)
Definition check_input (m : manifest) : bool :=
  check_common (e_rauc e) m
  && (if bformat_eqb (mf_format m) F_PLAIN then check_plain m else true)
  && forallb (fun i => match im_filename i with Some f => negb (has_char "/" f) | None => true end
                       && match im_digest i with None => true | Some _ => false end
                       && (im_size i =? -1)%Z
                       && match im_converted i with [] => true | _ => false end) (mf_images m).

(** the key is present in the image's section: a non-NULL, perhaps empty, list *)
Definition has_key (kf : keyfile) (i : image) (k : string) : bool :=
  match kf_get kf (image_group i) k with Some _ => true | None => false end.

Definition with_sum (i : image) (dg : option string) (sz : Z) : image :=
  mkImage (im_class i) (im_artifact i) (im_variant i) dg sz (im_filename i) (im_type i) (im_type_from_ext i)
    (im_pre i) (im_install i) (im_post i) (im_adaptive i) (im_convert i) (im_converted i).
Definition with_converted (i : image) (l : list string) : image :=
  mkImage (im_class i) (im_artifact i) (im_variant i) (im_digest i) (im_size i) (im_filename i) (im_type i)
    (im_type_from_ext i) (im_pre i) (im_install i) (im_post i) (im_adaptive i) (im_convert i) l.

Fixpoint each_image (f : image -> M image) (l : list image) : M (list image) :=
  match l with
  | [] => ret []
  | i :: r => let* i' := f i in let* r' := each_image f r in ret (i' :: r')
  end.

(** manifest.c:1355-1391 update_manifest_checksums, one image *)
Definition checksum_image (d : list string) (i : image) : M image :=
  match im_filename i with
  | None => ret (with_sum i (im_digest i) (-1))
  | Some f =>
      let* s := get in
      match open_in d f s with
      | None => fail
      | Some n => ask_ok (KRead (d ++ [f])) ;;
                  ret (with_sum i (Some (e_sha e (s_cont s n))) (Z.of_N (e_size e (s_cont s n))))
      end
  end.
(** manifest.c:1393-1422 sync_manifest_with_contentdir *)
Definition sync_manifest (m : manifest) (d : list string) : M manifest :=
  let* s := get in
  guard (forallb (fun i => match im_filename i with Some f => exists_in d f s | None => true end) (mf_images m)) ;;
  guard (match mf_hook m with Some h => exists_in d h s | None => true end) ;;
  let* l := each_image (checksum_image d) (mf_images m) in
  ret (with_images m l).

Definition wants (i : image) (method : string) : bool := existsb (String.eqb method) (im_convert i).

(** bundle.c:1256-1292 needs_fakeroot: (result, *mksquashfs_metadata) *)
Definition needs_fakeroot (m : manifest) : bool * bool :=
  let meta := existsb (fun i => wants i "tar-extract") (mf_images m) in
  let may := existsb (fun i => wants i "tar-extract" || wants i "composefs") (mf_images m) in
  (may && negb (e_pseudo e) && negb (e_root e), meta).

(** bundle.c:402-472 generate_adaptive_data *)
Fixpoint adaptive_methods (d : list string) (f : string) (l : list string) : M unit :=
  match l with
  | [] => ret tt
  | meth :: r =>
      (if String.eqb meth "block-hash-index" then
         let* s := get in
         match open_in d f s with
         | None => fail
         | Some n => ask_ok (KRead (d ++ [f])) ;;
                     set_contents (d ++ [(f ++ ".block-hash-index")%string]) (CIndex (s_cont s n))
         end
       else guard (String.eqb meth "adaptive-test-method")) ;;
      adaptive_methods d f r
  end.
Fixpoint generate_adaptive (d : list string) (l : list image) : M unit :=
  match l with
  | [] => ret tt
  | i :: r =>
      (match im_adaptive i, im_filename i with
       | [], _ => ret tt
       | _, None => fail                        (* excluded by check_manifest_common *)
       | ms, Some f => adaptive_methods d f ms
       end) ;; generate_adaptive d r
  end.

(** bundle.c:474-511 convert_tar_extract *)
Definition tar_extract (d : list string) (f : string) (fake : bool) : M string :=
  let c := (f ++ ".extracted")%string in
  mkdir (d ++ [c]) ;;
  let* a := ask (KTar (d ++ [f]) (d ++ [c]) fake) in
  modify (put (d ++ [c]) (Some (match a_left a with Some (Dir x) => Dir x | _ => Dir [] end))) ;;
  guard (a_ok a) ;; ret c.

(** bundle.c:514-562 convert_composefs; the image is written to <file>.cfs/image.cfs and objects to
    .rauc-cfs-store, both inside the working directory *)
Definition composefs (d : list string) (f : string) (fake : bool) : M string :=
  let c := (f ++ ".cfs")%string in
  let store := ".rauc-cfs-store" in
  guard (e_composefs e) ;;
  mkdir (d ++ [c]) ;;
  let* s := get in
  (match tget (s_root s) (d ++ [store]) with Some (Dir _) => ret tt | _ => mkdir (d ++ [store]) end) ;;
  let* a := ask (KComposefs (d ++ [(f ++ ".extracted")%string]) (d ++ [c]) (d ++ [store]) fake) in
  modify (put (d ++ [c]) (Some (match a_left a with Some (Dir x) => Dir x | _ => Dir [] end))) ;;
  let* a2 := ask (KWrite (d ++ [store])) in
  modify (put (d ++ [store]) (Some (match a_left a2 with Some (Dir x) => Dir x | _ => Dir [] end))) ;;
  guard (a_ok a) ;; ret c.

(** bundle.c:604-636: the loop over the methods: converted names, keep *)
Fixpoint convert_methods (d : list string) (f : string) (fake : bool) (l : list string) : M (list string * bool) :=
  match l with
  | [] => ret ([], false)
  | meth :: r =>
      let* c := (if String.eqb meth "tar-extract" then ret (f ++ ".extracted")%string
                 else if String.eqb meth "composefs" then composefs d f fake
                 else if String.eqb meth "keep" then ret f else fail) in
      let* cr := convert_methods d f fake r in
      ret (c :: fst cr, String.eqb meth "keep" || snd cr)
  end.

(** bundle.c:565-662 convert_images, one image; [kf]: the input manifest, where an empty list can be
    told from a missing one *)
Definition convert_image (kf : keyfile) (d : list string) (fake : bool) (i : image) : M image :=
  if has_key kf i "converted" && Nat.eqb (List.length (im_converted i)) 0 then fail else      (* :576-583 *)
  if negb (has_key kf i "convert") then ret i else                                     (* :585-586 *)
  match im_filename i with
  | None => fail                                      (* excluded by check_manifest_common *)
  | Some f =>
      let tar := wants i "tar-extract" || wants i "composefs" in
      (if tar then (let* c := tar_extract d f fake in ret tt) else ret tt) ;;
      let* ck := convert_methods d f fake (im_convert i) in
      (if tar && negb (wants i "tar-extract") then rm_tree (d ++ [(f ++ ".extracted")%string]) else ret tt) ;;
      (if snd ck then ret tt else
         let* s := get in
         match tget (s_root s) (d ++ [f]) with
         | None | Some (Dir _) => fail
         | Some _ => ask_ok (KUnlink (d ++ [f])) ;; modify (put (d ++ [f]) None)
         end) ;;
      ret (with_converted i (fst ck))
  end.

(** bundle.c:109-166 mksquashfs ([src]: the directory packed) *)
Definition mksquashfs (src : list string) (meta fake : bool) : M unit :=
  let* s := get in
  match s_out s with
  | Some _ => fail
  | None =>
      let* a := ask (KSquash src meta fake) in
      if a_ok a
      then match tget (s_root s) src with
           | Some (Dir es) => modify (set_out (Some (OSquash es (s_cont s) meta)))
           | _ => fail
           end
      else (modify (set_out (a_out a)) ;; fail)
  end.

Definition with_key (m : manifest) (k : string) : manifest :=
  mkManifest (mf_compatible m) (mf_version m) (mf_description m) (mf_build m) (mf_min_rauc m)
    (mf_format m) (mf_format_explicit m) (mf_verity_hash m) (mf_verity_salt m) (mf_verity_size m)
    (Some k) (mf_handler m) (mf_handler_args m) (mf_hook m) (mf_install_check m) (mf_images m) (mf_meta m).
Definition with_verity (m : manifest) (h salt : string) (n : N) : manifest :=
  mkManifest (mf_compatible m) (mf_version m) (mf_description m) (mf_build m) (mf_min_rauc m)
    (mf_format m) (mf_format_explicit m) (Some h) (Some salt) n
    (mf_crypt_key m) (mf_handler m) (mf_handler_args m) (mf_hook m) (mf_install_check m) (mf_images m) (mf_meta m).

(** steps that can also abort the process (g_assert) *)
Inductive fin (A : Type) := FVal (x : A) | FFail | FAbort.
Arguments FVal {A}. Arguments FFail {A}. Arguments FAbort {A}.

(** a call that rewrites the output file: [f] on success, anything on failure *)
Definition rewrite_out (k : call) (f : ans -> outc -> outc) : M ans :=
  let* a := ask k in
  let* s := get in
  if a_ok a
  then (modify (set_out (option_map (f a) (s_out s))) ;; ret a)
  else (modify (set_out (a_out a)) ;; fail).

Definition lift {A} (m : M A) (s : st) : fin A * st :=
  match m s with (Some x, s') => (FVal x, s') | (None, s') => (FFail, s') end.

(** bundle.c:1002-1049 encrypt_bundle_payload *)
Definition encrypt_payload (m : manifest) (s : st) : fin manifest * st :=
  match mf_crypt_key m with
  | Some _ => (FAbort, s)                                                        (* :1017 *)
  | None => lift (let* a := rewrite_out KEncrypt (fun a o => OEnc o (a_s1 a)) in ret (with_key m (a_s1 a))) s
  end.

(** bundle.c:732-813 create_verity *)
Definition create_verity (m : manifest) (s : st) : fin manifest * st :=
  match lift (ask_ok KVerityOpen) s with
  | (FVal _, s) =>
      match mf_verity_salt m, mf_verity_hash m with
      | None, None =>
          if (mf_verity_size m =? 0)%N
          then lift (let* a := rewrite_out KVerity (fun a o => OVerity o (a_s1 a) (a_s2 a) (a_n a)) in
                     ret (with_verity m (a_s1 a) (a_s2 a) (a_n a))) s
          else (FAbort, s)
      | _, _ => (FAbort, s)                                                      (* :755-757 *)
      end
  | (_, s) => (FFail, s)
  end.

(** bundle.c:898-950 generate_bundle_signature, 815-867 append_signature_to_bundle *)
Definition sign (m : manifest) : M unit :=
  match (if bformat_eqb (mf_format m) F_PLAIN then check_internal (e_rauc e) m else check_external (e_rauc e) m) with
  | Ok m' => let* a := rewrite_out KSign (fun _ o => OSigned o m') in ret tt
  | _ => fail
  end.

(** bundle.c:960-988 sign_bundle *)
Definition sign_bundle (m : manifest) (s : st) : fin unit * st :=
  if bformat_eqb (mf_format m) F_PLAIN then lift (sign m) s
  else match create_verity m s with
       | (FVal m', s) => lift (sign m') s
       | (FFail, s) => (FFail, s)
       | (FAbort, s) => (FAbort, s)
       end.

(** how create_bundle ends: the value of [res] and whether an error is set *)
Inductive outcome := Ret (ok err : bool) | Aborted.

(** bundle.c:1315-1352: everything up to the fakeroot environment *)
Definition load_phase : M (list string * keyfile * manifest) :=
  let* wd := prepare_workdir in
  let* km := load_manifest wd in
  guard (check_input (snd km)) ;;
  guard (check_create (snd km)) ;;
  let* m := sync_manifest (snd km) wd in
  ret (wd, fst km, m).

(** bundle.c:1362-1384: from adaptive data to the squashfs *)
Definition pack_phase (wd : list string) (kf : keyfile) (m : manifest) (meta fake : bool) : M manifest :=
  generate_adaptive wd (mf_images m) ;;
  let* l := each_image (convert_image kf wd fake) (mf_images m) in
  let m := with_images m l in
  set_contents (wd ++ [MF]) (CText (prepare_manifest m)) ;;
  mksquashfs wd meta fake ;;
  ret m.

(** bundle.c:1386-1398 *)
Definition sign_phase (m : manifest) (s : st) : fin unit * st :=
  if bformat_eqb (mf_format m) F_CRYPT
  then match encrypt_payload m s with
       | (FVal m', s) => sign_bundle m' s
       | (FFail, s) => (FFail, s)
       | (FAbort, s) => (FAbort, s)
       end
  else sign_bundle m s.

(** bundle.c:1315-1417: outcome and whether the output is kept.  [res] is not reset before the two
    "goto out" at :1358 and :1402, where it is TRUE from the step before. *)
Definition create_body (s : st) : outcome * bool * st :=
  match load_phase s with
  | (None, s) => (Ret false true, false, s)
  | (Some (wd, kf, m), s) =>
      let (nf, meta) := needs_fakeroot m in
      match (if nf then (let* a := ask KFakeInit in
                         if a_ok a then modify (set_fake true)
                         else (modify (fun s => match a_left a with Some _ => set_fake true s | None => s end) ;; fail))
             else ret tt) s with
      | (None, s) => (Ret true true, false, s)                                     (* :1355-1358 *)
      | (Some _, s) =>
          let cleanup (s : st) : st :=                                             (* :1408-1415 *)
            if nf then match ask KFakeRm s with
                       | (Some a, s) => if a_ok a then set_fake false s else s
                       | (None, s) => s
                       end else s in
          match pack_phase wd kf m meta nf s with
          | (None, s) => (Ret false true, false, cleanup s)
          | (Some m, s) =>
              match sign_phase m s with
              | (FAbort, s) => (Aborted, false, s)
              | (FFail, s) => (Ret false true, false, cleanup s)
              | (FVal _, s) =>
                  match rm_tree wd s with
                  | (None, s) => (Ret true true, false, cleanup s)                 (* :1400-1403 *)
                  | (Some _, s) => (Ret true false, true, cleanup s)
                  end
              end
          end
      end
  end.

(** bundle.c:1294-1417 create_bundle, with the removal of the output on return (:1313,
    utils.c:914-925 r_tempfile_cleanup) *)
Definition create_bundle (s : st) : outcome * st :=
  match s_out s with
  | Some _ => (Ret false true, s)
  | None =>
      match create_body s with
      | (Aborted, _, s') => (Aborted, s')
      | (r, true, s') => (r, s')
      | (r, false, s') =>
          match s_out s' with
          | None => (r, s')
          | Some _ => match ask KUnlinkOut s' with
                      | (Some a, s'') => (r, if a_ok a then set_out None s'' else s'')
                      | (None, s'') => (r, s'')
                      end
          end
      end
  end.

End Run.
Arguments FVal {A}. Arguments FFail {A}. Arguments FAbort {A}.
