(** Model of src/install.c:1527-1683 do_install_bundle: everything around the default
    handler (InstallRun.v). *)
From Verif Require Import Base Slot Image Handlers KeyFile Hex Semver Manifest Bundle Install InstallRun.

(** what an installation does, in order *)
Inductive gevent (B : Type) :=
| GAccess (e : access_ev)       (* bundle mounted *)
| GPre                          (* pre-install handler of system.conf run *)
| GHook                         (* install-check hook of the bundle run *)
| GCustom                       (* custom handler of the bundle run *)
| GRun (e : event B)            (* change made by the default handler *)
| GPost.                        (* post-install handler of system.conf run *)
Arguments GAccess {B}. Arguments GPre {B}. Arguments GHook {B}. Arguments GCustom {B}.
Arguments GRun {B}. Arguments GPost {B}.

(** RaucInstallArgs (include/install.h:26-41) *)
Record iargs := mkIargs {
  ia_ignore_compatible : bool;
  ia_ignore_version : bool;
  ia_require_hash : option string
}.

(** system.conf *)
Record gconf := mkGconf {
  gc_compatible : option string;       (* system_compatible *)
  gc_min_version : option string;      (* min-bundle-version *)
  gc_pre : bool;                       (* pre-install handler configured *)
  gc_post : bool;
  gc_bundle : bconf;
  gc_sys : sysconf
}.

(** outcomes of external steps; programs: exit code 0 or not *)
Record gout := mkGout {
  go_mounts : bool;      (* update_external_mount_points *)
  go_mount : bool;       (* mounting the bundle *)
  go_pre : bool; go_hook : bool; go_custom : bool; go_post : bool
}.

(** install.c:602-617 verify_compatible *)
Definition verify_compatible (a : iargs) (cf : gconf) (m : manifest) : bool :=
  ia_ignore_compatible a || opt_eqb (gc_compatible cf) (mf_compatible m).

(** install.c:619-660 check_version_limits *)
Definition check_version_limits (a : iargs) (cf : gconf) (m : manifest) : bool :=
  match gc_min_version cf with
  | None => true
  | Some min =>
      if ia_ignore_version a then true
      else match mf_version m with
           | None => false
           | Some v => match semver_less_equal min v with Ok b => b | _ => false end
           end
  end.

(** manifest.c:440-463 load_manifest_mem: hash of the signed manifest; [sha] = SHA256 in hex *)
Definition manifest_hash (cr : crypto) (sha : bytes -> string) (b : bundle) : option string :=
  match b_manifest b with
  | None => None
  | Some _ => option_map sha (cm_verify cr (b_sig b))
  end.

(** install.c:1563-1577 *)
Definition hash_gate (cr : crypto) (sha : bytes -> string) (a : iargs) (b : bundle) : bool :=
  match ia_require_hash a with
  | None => true
  | Some h => match b_manifest b with
              | None => false
              | Some _ => opt_is (manifest_hash cr sha b) h
              end
  end.

(** install.c:1579-1583 *)
Definition crypt_gate (b : bundle) : bool :=
  match b_manifest b with
  | Some m => negb (bformat_eqb (mf_format m) F_CRYPT && negb (b_was_encrypted b))
  | None => true
  end.

Definition run_step (configured ok : bool) : bool := negb configured || ok.
Definition step_ev {B} (configured : bool) (e : gevent B) : list (gevent B) := if configured then [e] else [].

(** install.c:1611-1668, from the compatible check on.  [m]: manifest of the mounted bundle.
    The rest of [inp] (in_images) is not used. *)
Definition gated {B} (bk : backend B) (cf : gconf) (a : iargs) (go : gout) (inp : inputs) (m : manifest) (w : world B)
  : res unit * list (gevent B) :=
  let hook := step_ev (mf_install_check m) GHook in
  if negb (if mf_install_check m then go_hook go else verify_compatible a cf m) then (Err, hook)   (* :1613-1636 *)
  else if negb (check_version_limits a cf m) then (Err, hook)                                    (* :1638-1642 *)
  else
    let '(r, es) := match mf_handler m with
                    | Some _ => (if go_custom go then Ok tt else Err, [GCustom])                  (* :1644-1646 *)
                    | None =>
                        let '(r, es) := default_handler bk (gc_sys cf) (mf_images m)
                              (determine_target_group (cf_per_slot (gc_sys cf)) (in_states inp) (in_info inp)
                                 (cf_slots (gc_sys cf)))
                              (in_checks inp) (in_artifacts_ok inp) (in_out inp) w in
                        (r, map GRun es)
                    end in
    match r with
    | Ok _ => ((if run_step (gc_post cf) (go_post go) then Ok tt else Err),
               hook ++ es ++ step_ev (gc_post cf) GPost)                                          (* :1657-1664 *)
    | Err => (Err, hook ++ es)
    | Abort => (Abort, hook ++ es)
    end.

(** install.c:1527-1683 do_install_bundle (events only; the bundle file may be replaced
    between checking and mounting: [f_mount]).  determine_target_install_group never
    returns NULL. *)
Definition do_install {B} (cr : crypto) (sha : bytes -> string) (bk : backend B) (cf : gconf) (a : iargs) (go : gout)
  (remote : bool) (f f_mount : bytes) (excl access : bool) (inp : inputs) (w : world B) : res unit * list (gevent B) :=
  if negb (go_mounts go) then (Err, []) else
  match check_bundle cr (gc_bundle cf) (mkBparams true false) remote f excl access with
  | Err => (Err, []) | Abort => (Abort, [])
  | Ok b =>
      if negb (hash_gate cr sha a b) then (Err, [])
      else if negb (crypt_gate b) then (Err, [])
      else match mount_bundle cr (gc_bundle cf) f_mount (go_mount go) b with
           | Err => (Err, []) | Abort => (Abort, [])
           | Ok (b', e) =>
               match b_manifest b' with
               | None => (Abort, [GAccess e])                       (* not reached *)
               | Some m =>
                   let pre := GAccess e :: step_ev (gc_pre cf) GPre in
                   if negb (run_step (gc_pre cf) (go_pre go)) then (Err, pre)
                   else let '(r, es) := gated bk cf a go inp m w in (r, pre ++ es)
               end
           end
  end.
