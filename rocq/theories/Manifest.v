(** Model of src/manifest.c: parsing, writing and checking manifests. *)
From Verif Require Import Base Image Handlers KeyFile EnvKey Hex Semver.

Inductive bformat := F_PLAIN | F_VERITY | F_CRYPT.
Definition bformat_eqb (a b : bformat) : bool :=
  match a, b with F_PLAIN, F_PLAIN | F_VERITY, F_VERITY | F_CRYPT, F_CRYPT => true | _, _ => false end.

(** include/manifest.h:50-85 RaucManifest (without was_encrypted, hash, warnings, which are
    not part of the file).  meta: hash tables as lists in iteration order. *)
Record manifest := mkManifest {
  mf_compatible : option string;
  mf_version : option string;
  mf_description : option string;
  mf_build : option string;
  mf_min_rauc : option string;
  mf_format : bformat;
  mf_format_explicit : bool;
  mf_verity_hash : option string;
  mf_verity_salt : option string;
  mf_verity_size : N;              (* guint64 *)
  mf_crypt_key : option string;
  mf_handler : option string;
  mf_handler_args : option string;
  mf_hook : option string;
  mf_install_check : bool;
  mf_images : list image;
  mf_meta : list (string * list (string * string))
}.

(** guint64 -> goffset (gint64) *)
Definition to_goffset (n : N) : Z := if (n <? 2 ^ 63)%N then Z.of_N n else (Z.of_N n - 2 ^ 64)%Z.

(** manifest.c:97-117: the group name.  (A NULL slotclass, for names such as "image.", is
    represented as "".) *)
Definition parse_image_name (g : string) : string * option string * option string :=
  let gs := g_strsplit_max "." 3 g in
  let ts := g_strsplit_max "/" 2 (nth 1 gs "") in
  (nth 0 ts "", nth_error ts 1, nth_error gs 2).

(** manifest.c:133-148 *)
Fixpoint parse_slot_hooks (l : list string) (pre ins post : bool) : option (bool * bool * bool) :=
  match l with
  | [] => Some (pre, ins, post)
  | h :: r =>
      if String.eqb h "pre-install" then parse_slot_hooks r true ins post
      else if String.eqb h "install" then parse_slot_hooks r pre true post
      else if String.eqb h "post-install" then parse_slot_hooks r pre ins true
      else None
  end.

Definition kf_list (kf : keyfile) (g k : string) : list string :=
  match kf_get kf g k with Some v => value_list v | None => [] end.

(** manifest.c:22-44 handle_missing_type: (type, type_from_fileext) *)
Definition missing_type (install : bool) (filename : option string) : res (option string * bool) :=
  if install then Ok (None, false)
  else match filename with
       | None => Err
       | Some f => match derive_image_type f with Some t => Ok (Some t, true) | None => Err end
       end.

(** manifest.c:161-190 *)
Definition parse_type (kf : keyfile) (g : string) (artifact : option string) (install : bool)
  (filename : option string) : res (option string * bool) :=
  match artifact with
  | Some _ => Ok (None, false)
  | None =>
      do (t, ext) <- (match kf_consume kf g "type" with
                      | CVal t => Ok (Some t, false)
                      | CMissing => missing_type install filename
                      | CEmpty => Err
                      end) ;;
      if negb install && negb (match t with Some t => is_image_type_supported t | None => false end)
      then Err else Ok (t, ext)
  end.

(** manifest.c:81-217 parse_image *)
Definition parse_image (kf : keyfile) (g : string) : res image :=
  let '(cls, art, var) := parse_image_name g in
  do size <- (match kf_get kf g "size" with
              | None => Ok (-1)%Z
              | Some v => match strtoull_all v with Some n => Ok (to_goffset n) | None => Err end
              end) ;;                                                             (* :124-133 *)
  do (pre, ins, post) <- of_option (parse_slot_hooks (kf_list kf g "hooks") false false false) ;;
  do filename <- (match kf_consume kf g "filename" with
                  | CVal f => Ok (Some f) | CMissing => Ok None | CEmpty => Err end) ;;  (* :151-159 *)
  do (t, ext) <- parse_type kf g art ins filename ;;
  if kf_only kf g (["sha256"; "size"; "hooks"; "filename"; "version"; "description"; "build";
                    "adaptive"; "convert"; "converted"]
                   ++ match art with None => ["type"] | Some _ => [] end)
  then Ok (mkImage cls art var (kf_consume_opt kf g "sha256") size filename t ext pre ins post
             (kf_list kf g "adaptive") (kf_list kf g "convert") (kf_list kf g "converted"))
  else Err.

(** manifest.c:219-278 parse_meta *)
Definition parse_meta (kf : keyfile) (g : string) : res (string * list (string * string)) :=
  match g_strsplit_max "." 2 g with
  | [_; label] =>
      if negb (no_char "." label) then Err
      else match env_key label with
           | None => Err
           | Some _ =>
               let kvs := match kf_group kf g with Some l => l | None => [] end in
               if forallb (fun kv => negb (String.eqb (snd kv) "")
                                     && match env_key (fst kv) with Some _ => true | None => false end) kvs
               then Ok (label, kvs) else Err
           end
  | _ => Err
  end.

(** manifest.c:398-418: the loop over the groups *)
Fixpoint parse_groups (kf : keyfile) (gs : list string) : res (list image * list (string * list (string * string))) :=
  match gs with
  | [] => Ok ([], [])
  | g :: r =>
      if has_prefix "image." g then
        do i <- parse_image kf g ;; do (is, ms) <- parse_groups kf r ;; Ok (i :: is, ms)
      else if has_prefix "meta." g then
        do m <- parse_meta kf g ;; do (is, ms) <- parse_groups kf r ;; Ok (is, m :: ms)
      else if String.eqb g "rollout" then parse_groups kf r                       (* :420-422 *)
      else Err                                                                    (* :424-427 *)
  end.

(** manifest.c:290-429 parse_manifest *)
Definition parse_manifest (kf : keyfile) : res manifest :=
  do compat <- (match kf_consume kf "update" "compatible" with CVal s => Ok s | _ => Err end) ;;
  if negb (kf_only kf "update" ["compatible"; "version"; "description"; "build"; "min-rauc-version"]) then Err else
  let fmt := kf_consume_opt kf "bundle" "format" in
  do f <- (match fmt with
           | None => Ok F_PLAIN
           | Some s => if String.eqb s "plain" then Ok F_PLAIN
                       else if String.eqb s "verity" then Ok F_VERITY
                       else if String.eqb s "crypt" then Ok F_CRYPT else Err
           end) ;;
  let verity := negb (bformat_eqb f F_PLAIN) in
  let crypt := bformat_eqb f F_CRYPT in
  if negb (kf_only kf "bundle" (["format"] ++ (if verity then ["verity-hash"; "verity-salt"; "verity-size"] else [])
                                ++ (if crypt then ["crypt-key"] else []))) then Err else
  let hname := kf_consume_opt kf "handler" "filename" in
  let hargs := kf_consume_opt kf "handler" "args" in
  if match hargs, hname with Some _, None => true | _, _ => false end then Err else
  if negb (kf_only kf "handler" ["filename"; "args"]) then Err else
  let hooks := kf_list kf "hooks" "hooks" in
  if negb (forallb (String.eqb "install-check") hooks) then Err else
  if negb (kf_only kf "hooks" ["filename"; "hooks"]) then Err else
  do (imgs, meta) <- parse_groups kf
       (filter (fun g => negb (existsb (String.eqb g) ["update"; "bundle"; "handler"; "hooks"])) (kf_groups kf)) ;;
  Ok (mkManifest (Some compat)
        (kf_consume_opt kf "update" "version") (kf_consume_opt kf "update" "description")
        (kf_consume_opt kf "update" "build") (kf_consume_opt kf "update" "min-rauc-version")
        f (match fmt with Some _ => true | None => false end)
        (if verity then kf_consume_opt kf "bundle" "verity-hash" else None)
        (if verity then kf_consume_opt kf "bundle" "verity-salt" else None)
        (if verity then match kf_get kf "bundle" "verity-size" with
                        | Some v => match strtoull_all v with Some n => n | None => 0%N end
                        | None => 0%N end else 0%N)
        (if crypt then kf_consume_opt kf "bundle" "crypt-key" else None)
        hname hargs (kf_consume_opt kf "hooks" "filename")
        (match hooks with [] => false | _ => true end) imgs meta).

(** ** writing *)
Definition opt1 (k : string) (v : option string) : list (string * string) :=
  match v with Some s => [(k, s)] | None => [] end.
Definition bool1 (k v : string) (b : bool) : list (string * string) := if b then [(k, v)] else [].
Definition list1 (k : string) (l : list string) : list (string * string) :=
  match l with [] => [] | _ => [(k, list_value l)] end.

(** a sequence of g_key_file_set_* calls on one group *)
Definition kf_set_all (kf : keyfile) (g : string) (es : list (string * string)) : keyfile :=
  fold_left (fun kf e => kf_set kf g (fst e) (snd e)) es kf.

(** manifest.c:1038-1052 *)
Definition image_group (i : image) : string :=
  ("image." ++ im_class i ++ match im_artifact i with Some a => "/" ++ a | None => "" end
   ++ match im_variant i with Some v => "." ++ v | None => "" end)%string.

(** manifest.c:1054-1095.  checksum.type is SHA256 iff there is a digest. *)
Definition image_entries (i : image) : list (string * string) :=
  opt1 "sha256" (im_digest i)
  ++ (if (0 <=? im_size i)%Z then [("size", print_num 10 (Z.to_N (im_size i)))] else [])
  ++ opt1 "filename" (im_filename i)
  ++ (if im_type_from_ext i then [] else opt1 "type" (im_type i))
  ++ list1 "hooks" ((if im_pre i then ["pre-install"] else []) ++ (if im_install i then ["install"] else [])
                    ++ (if im_post i then ["post-install"] else []))
  ++ list1 "adaptive" (im_adaptive i) ++ list1 "convert" (im_convert i) ++ list1 "converted" (im_converted i).

(** manifest.c:953-1112 prepare_manifest *)
Definition update_entries (m : manifest) : list (string * string) :=
  opt1 "compatible" (mf_compatible m) ++ opt1 "version" (mf_version m)
  ++ opt1 "description" (mf_description m) ++ opt1 "build" (mf_build m).
Definition verity_entries (m : manifest) : list (string * string) :=
  opt1 "verity-hash" (mf_verity_hash m) ++ opt1 "verity-salt" (mf_verity_salt m)
  ++ (if (mf_verity_size m =? 0)%N then [] else [("verity-size", print_num 10 (mf_verity_size m))]).
Definition bundle_entries (m : manifest) : list (string * string) :=
  match mf_format m with
  | F_PLAIN => bool1 "format" "plain" (mf_format_explicit m)
  | F_VERITY => ("format", "verity") :: verity_entries m
  | F_CRYPT => opt1 "crypt-key" (mf_crypt_key m) ++ ("format", "crypt") :: verity_entries m
  end.
Definition handler_entries (m : manifest) : list (string * string) :=
  opt1 "filename" (mf_handler m) ++ opt1 "args" (mf_handler_args m).
Definition hooks_entries (m : manifest) : list (string * string) :=
  opt1 "filename" (mf_hook m) ++ list1 "hooks" (if mf_install_check m then ["install-check"] else []).

Definition prepare_manifest (m : manifest) : keyfile :=
  let kf := kf_set_all [] "update" (update_entries m) in
  let kf := kf_set_all kf "bundle" (bundle_entries m) in
  let kf := kf_set_all kf "handler" (handler_entries m) in
  let kf := kf_set_all kf "hooks" (hooks_entries m) in
  let kf := fold_left (fun kf i => kf_set_all kf (image_group i) (image_entries i)) (mf_images m) kf in
  fold_left (fun kf gk => kf_set_all kf ("meta." ++ fst gk)%string (snd gk)) (mf_meta m) kf.

(** ** checks *)

(** manifest.c:46-79 validate_filename_requirements *)
Definition filename_req (i : image) : bool :=
  let has := match im_filename i with Some _ => true | None => false end in
  (if opt_is (im_type i) "emptyfs" then negb has else has || im_install i)
  && (match im_adaptive i with [] => true | _ => has end)
  && (match im_convert i with [] => true | _ => has end).

(** manifest.c:503-584 check_manifest_common ([rauc] = RAUC_MESON_VERSION) *)
Definition check_common (rauc : string) (m : manifest) : bool :=
  check_min_rauc_version rauc (mf_min_rauc m)
  && (let have_hooks := mf_install_check m
                        || existsb (fun i => im_pre i || im_install i || im_post i) (mf_images m) in
      negb have_hooks || match mf_hook m with Some _ => true | None => false end)
  && forallb filename_req (mf_images m).

(** manifest.c:586-607 check_manifest_plain *)
Definition check_plain (m : manifest) : bool :=
  forallb (fun i => match im_artifact i with Some _ => false | None => true end
                    && match im_convert i with [] => true | _ => false end
                    && match im_converted i with [] => true | _ => false end) (mf_images m).

(** manifest.c:614-631 is_valid_digest for SHA256 *)
Definition is_valid_digest (d : string) : bool :=
  Nat.eqb (String.length d) 64
  && all_chars (fun c => match digit_val c with Some _ => true | None => false end) d.

(** manifest.c:639-712 check_manifest_bundled for one image; returns the image because a
    missing size is replaced by 0 for install hooks *)
Definition check_bundled_image (i : image) : res image :=
  match im_filename i with
  | None => Ok i
  | Some f =>
      if has_char "/" f then Err else
      match im_digest i with
      | None => Err                                    (* wrong checksum type, missing digest *)
      | Some d =>
          if negb (is_valid_digest d) then Err else
          do i' <- (if (im_size i <? 0)%Z then
                      if im_install i then
                        Ok (mkImage (im_class i) (im_artifact i) (im_variant i) (im_digest i) 0 (im_filename i)
                              (im_type i) (im_type_from_ext i) (im_pre i) (im_install i) (im_post i)
                              (im_adaptive i) (im_convert i) (im_converted i))
                      else Err
                    else Ok i) ;;
          match im_convert i with
          | [] => Ok i'
          | _ => if Nat.eqb (List.length (im_convert i)) (List.length (im_converted i))
                    && forallb (fun c => negb (has_char "/" c)) (im_converted i)
                 then Ok i' else Err
          end
      end
  end.

Fixpoint check_bundled (l : list image) : res (list image) :=
  match l with
  | [] => Ok []
  | i :: r => do i' <- check_bundled_image i ;; do r' <- check_bundled r ;; Ok (i' :: r')
  end.

Definition with_images (m : manifest) (l : list image) : manifest :=
  mkManifest (mf_compatible m) (mf_version m) (mf_description m) (mf_build m) (mf_min_rauc m)
    (mf_format m) (mf_format_explicit m) (mf_verity_hash m) (mf_verity_salt m) (mf_verity_size m)
    (mf_crypt_key m) (mf_handler m) (mf_handler_args m) (mf_hook m) (mf_install_check m) l (mf_meta m).

(** manifest.c:774-831 check_manifest_internal *)
Definition check_internal (rauc : string) (m : manifest) : res manifest :=
  if negb (check_common rauc m) then Err else
  if negb (bformat_eqb (mf_format m) F_PLAIN) then Err else
  do l <- check_bundled (mf_images m) ;;
  if negb (check_plain m) then Err else
  match mf_crypt_key m, mf_verity_hash m, mf_verity_salt m with
  | None, None, None => if (mf_verity_size m =? 0)%N then Ok (with_images m l) else Err
  | _, _, _ => Err
  end.

Definition hex32 (o : option string) : bool :=
  match o with Some s => match hex_decode s 32 with Some _ => true | None => false end | None => false end.

(** manifest.c:833-928 check_manifest_external *)
Definition check_external (rauc : string) (m : manifest) : res manifest :=
  if negb (check_common rauc m) then Err else
  if bformat_eqb (mf_format m) F_PLAIN then Err else
  if bformat_eqb (mf_format m) F_CRYPT && negb (hex32 (mf_crypt_key m)) then Err else
  if negb (hex32 (mf_verity_hash m) && hex32 (mf_verity_salt m)
           && negb (mf_verity_size m =? 0)%N && (mf_verity_size m mod 4096 =? 0)%N) then Err else
  do l <- check_bundled (mf_images m) ;;
  Ok (with_images m l).

(** manifest.c:930-951 check_manifest_create *)
Definition check_create (m : manifest) : bool :=
  forallb (fun i => negb (im_install i && (im_pre i || im_post i))) (mf_images m).
