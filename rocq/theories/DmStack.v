(** Model of how a local bundle becomes a mounted file system and is taken down again:
    src/bundle.c:2912-2961 prepare_verity, 2978-3057 prepare_crypt, 3059-3184 mount_bundle, 3186-3219
    umount_bundle; src/mount.c:18-56 r_mount_bundle / r_umount_bundle, 106-230 r_setup_loop, 258-287
    r_create_mount_point; src/dm.c:71-108 check_status, 110-308 r_dm_setup, 310-364 r_dm_remove.

    The program acts on a kernel.  Each system call is a [kact]; an arbitrary oracle (which may depend on
    everything that happened before) decides whether it works, except that the kernel refuses calls that its
    own state makes impossible ([feasible]).  The kernel state records only what this process holds: loop
    devices it configured, descriptors, device-mapper devices, mounts and the mount point directory.  What
    others hold shows as refusals (a loop device in use, a device-mapper name in use).

    Simplifications: device paths are the constructors of [dev] (their text is [dev_path]); the bundle is
    local (the NBD branch, bundle.c:3094-3108, is C46..C48); EAGAIN is retried until something else is
    answered, so it is not an answer; UUIDs are left out because a process never has two devices of a kind;
    the check of the manifest inside a plain bundle is one action. *)
From Verif Require Import Base.

(** ** Kernel *)

Inductive dk := Verity | Crypt.
Inductive dev := DLoop (n : N) | DDm (minor : N).
Definition dk_eqb (a b : dk) := match a, b with Verity, Verity | Crypt, Crypt => true | _, _ => false end.
Definition dev_eqb (a b : dev) :=
  match a, b with DLoop n, DLoop m => (n =? m)%N | DDm n, DDm m => (n =? m)%N | _, _ => false end.
(** mount.c:152 "/dev/loop%d", dm.c:241 "/dev/dm-%u" *)
Definition dev_path (d : dev) : string :=
  match d with DLoop n => ("/dev/loop" ++ print_num 10 n)%string | DDm m => ("/dev/dm-" ++ print_num 10 m)%string end.

Inductive desc := FLoopControl | FLoop (n : N) | FDmControl | FDm (m : N).
Definition desc_eqb (a b : desc) :=
  match a, b with
  | FLoopControl, FLoopControl | FDmControl, FDmControl => true
  | FLoop n, FLoop m => (n =? m)%N
  | FDm n, FDm m => (n =? m)%N
  | _, _ => false
  end.

(** lo_sizelimit and LO_FLAGS_READ_ONLY | LO_FLAGS_AUTOCLEAR, unset before LOOP_SET_STATUS64 *)
Record lcfg := { l_limit : option Z; l_ro : bool; l_auto : bool }.
Record table := { t_sectors : N; t_params : string; t_lower : dev; t_ro : bool }.
Record dmst := { d_kind : dk; d_minor : N; d_table : option table; d_active : bool; d_pending : bool }.
Record mnt := { m_dev : dev; m_flags : list string }.
Record kst := { k_loops : list (N * lcfg); k_fds : list desc; k_dms : list dmst; k_mnts : list mnt; k_dir : bool }.

Inductive purpose := ForSetup | ForRemoval.
Inductive kact :=
  | KMkdir | KRmdir
  | KLoopControl | KLoopControlClose
  | KLoopFree
  | KLoopOpen (n : N) | KLoopClose (n : N)
  | KLoopSetFd (n : N)
  | KLoopStatus (n : N) (limit : Z) (ro auto : bool)
  | KLoopBlock (n : N) (size : N)
  | KLoopClear (n : N)
  | KDmControl (p : purpose) | KDmControlClose
  | KDmCreate (k : dk)
  | KDmLoad (k : dk) (t : table)
  | KDmResume (k : dk)
  | KDmOpen (m : N) | KDmClose (m : N)
  | KDmRead (m : N)
  | KDmStatus (k : dk)
  | KDmRemove (k : dk) (deferred : bool)
  | KReadAll (d : dev)
  | KMount (d : dev) (flags : list string)
  | KManifest
  | KUmount.

(** [Busy]: the errors after which another loop device is tried; [Said]: success with a text *)
Inductive ans := Good (n : N) | Said (text : string) | Busy | Bad.
Definition hist := list (kact * ans).

Definition find_dm (k : dk) (s : kst) : option dmst := List.find (fun d => dk_eqb (d_kind d) k) (k_dms s).
Definition dm_uses (x : dev) (d : dmst) : bool := match d_table d with Some t => dev_eqb (t_lower t) x | None => false end.
Definition fd_uses (x : dev) (f : desc) : bool :=
  match f, x with FLoop n, DLoop m => (n =? m)%N | FDm n, DDm m => (n =? m)%N | _, _ => false end.
Definition in_use (x : dev) (s : kst) : bool :=
  existsb (fd_uses x) (k_fds s) || existsb (dm_uses x) (k_dms s) || existsb (fun m => dev_eqb (m_dev m) x) (k_mnts s).
Definition exists_dev (x : dev) (s : kst) : bool :=
  match x with
  | DLoop n => existsb (fun l => (fst l =? n)%N) (k_loops s)
  | DDm m => existsb (fun d => (d_minor d =? m)%N && d_active d) (k_dms s)
  end.
Definition has_fd (f : desc) (s : kst) : bool := existsb (desc_eqb f) (k_fds s).

(** calls the kernel refuses whatever the oracle says *)
Definition feasible (s : kst) (a : kact) : bool :=
  match a with
  | KRmdir => k_dir s && match k_mnts s with [] => true | _ => false end
  | KLoopFree => has_fd FLoopControl s
  | KLoopSetFd n => has_fd (FLoop n) s && negb (exists_dev (DLoop n) s)
  | KLoopStatus n _ _ _ | KLoopBlock n _ | KLoopClear n => has_fd (FLoop n) s && exists_dev (DLoop n) s
  | KDmCreate k => has_fd FDmControl s && match find_dm k s with None => true | Some _ => false end
  | KDmLoad k t => has_fd FDmControl s && exists_dev (t_lower t) s && match find_dm k s with Some _ => true | None => false end
  | KDmResume k => has_fd FDmControl s && match find_dm k s with Some d => match d_table d with Some _ => true | None => false end | None => false end
  | KDmOpen m => exists_dev (DDm m) s
  | KDmRead m => has_fd (FDm m) s
  | KDmStatus k => has_fd FDmControl s && match find_dm k s with Some _ => true | None => false end
  | KDmRemove k deferred =>
      has_fd FDmControl s && match find_dm k s with Some d => deferred || negb (in_use (DDm (d_minor d)) s) | None => false end
  | KReadAll x => exists_dev x s
  | KMount x _ => exists_dev x s && k_dir s
  | KManifest | KUmount => match k_mnts s with [] => false | _ => true end
  | _ => true
  end.

Fixpoint remove_one {A} (f : A -> bool) (l : list A) : list A :=
  match l with [] => [] | x :: r => if f x then r else x :: remove_one f r end.
Definition set_fds (v : list desc) (s : kst) : kst :=
  {| k_loops := k_loops s; k_fds := v; k_dms := k_dms s; k_mnts := k_mnts s; k_dir := k_dir s |}.
Definition set_loops (v : list (N * lcfg)) (s : kst) : kst :=
  {| k_loops := v; k_fds := k_fds s; k_dms := k_dms s; k_mnts := k_mnts s; k_dir := k_dir s |}.
Definition set_dms (v : list dmst) (s : kst) : kst :=
  {| k_loops := k_loops s; k_fds := k_fds s; k_dms := v; k_mnts := k_mnts s; k_dir := k_dir s |}.
Definition set_mnts (v : list mnt) (s : kst) : kst :=
  {| k_loops := k_loops s; k_fds := k_fds s; k_dms := k_dms s; k_mnts := v; k_dir := k_dir s |}.
Definition set_dir (v : bool) (s : kst) : kst :=
  {| k_loops := k_loops s; k_fds := k_fds s; k_dms := k_dms s; k_mnts := k_mnts s; k_dir := v |}.
Definition upd_dm (k : dk) (f : dmst -> dmst) (s : kst) : kst :=
  set_dms (map (fun d => if dk_eqb (d_kind d) k then f d else d) (k_dms s)) s.

(** what a call that worked did; closing a descriptor always works *)
Definition effect (s : kst) (a : kact) (r : ans) : kst :=
  match a with
  | KLoopControlClose => set_fds (remove_one (desc_eqb FLoopControl) (k_fds s)) s
  | KLoopClose n => set_fds (remove_one (desc_eqb (FLoop n)) (k_fds s)) s
  | KDmControlClose => set_fds (remove_one (desc_eqb FDmControl) (k_fds s)) s
  | KDmClose m => set_fds (remove_one (desc_eqb (FDm m)) (k_fds s)) s
  | _ =>
    match r with
    | Good v =>
      match a with
      | KMkdir => set_dir true s
      | KRmdir => set_dir false s
      | KLoopControl => set_fds (FLoopControl :: k_fds s) s
      | KLoopOpen n => set_fds (FLoop n :: k_fds s) s
      | KLoopSetFd n => set_loops ((n, {| l_limit := None; l_ro := false; l_auto := false |}) :: k_loops s) s
      | KLoopStatus n lim ro auto =>
          set_loops (map (fun l => if (fst l =? n)%N then (n, {| l_limit := Some lim; l_ro := ro; l_auto := auto |}) else l) (k_loops s)) s
      | KLoopClear n => set_loops (List.filter (fun l => negb (fst l =? n)%N) (k_loops s)) s
      | KDmControl _ => set_fds (FDmControl :: k_fds s) s
      | KDmCreate k => set_dms ({| d_kind := k; d_minor := v; d_table := None; d_active := false; d_pending := false |} :: k_dms s) s
      | KDmLoad k t => upd_dm k (fun d => {| d_kind := d_kind d; d_minor := d_minor d; d_table := Some t; d_active := d_active d; d_pending := d_pending d |}) s
      | KDmResume k => upd_dm k (fun d => {| d_kind := d_kind d; d_minor := d_minor d; d_table := d_table d; d_active := true; d_pending := d_pending d |}) s
      | KDmOpen m => set_fds (FDm m :: k_fds s) s
      | KDmRemove k true =>
          upd_dm k (fun d => {| d_kind := d_kind d; d_minor := d_minor d; d_table := d_table d; d_active := d_active d; d_pending := true |}) s
      | KDmRemove k false => set_dms (List.filter (fun d => negb (dk_eqb (d_kind d) k)) (k_dms s)) s
      | KMount x fl => set_mnts ({| m_dev := x; m_flags := fl |} :: k_mnts s) s
      | KUmount => set_mnts (tl (k_mnts s)) s
      | _ => s
      end
    | _ => s
    end
  end.

(** the kernel drops devices marked for removal, and loop devices with autoclear, once nothing uses them;
    a stack has at most two device-mapper layers, so two rounds reach the fixed point *)
Definition settle_dm (s : kst) : kst :=
  set_dms (List.filter (fun d => negb (d_pending d && negb (in_use (DDm (d_minor d)) s))) (k_dms s)) s.
Definition settle_loop (s : kst) : kst :=
  set_loops (List.filter (fun l => negb (l_auto (snd l) && negb (in_use (DLoop (fst l)) s))) (k_loops s)) s.
Definition settle (s : kst) : kst := settle_loop (settle_dm (settle_dm s)).

(** the minor of a new device is one no other device has *)
Definition minor_ok (s : kst) (a : kact) (r : ans) : bool :=
  match a, r with KDmCreate _, Good v => negb (existsb (fun d => (d_minor d =? v)%N) (k_dms s)) | _, _ => true end.

Record world := { w_k : kst; w_tr : hist }.
Definition M A := world -> A * world.
Definition ret {A} (a : A) : M A := fun w => (a, w).
Definition bind {A B} (m : M A) (f : A -> M B) : M B := fun w => let '(a, w') := m w in f a w'.
Notation "'act' x <- m ; k" := (bind m (fun x => k)) (at level 200, x pattern, m at level 100, right associativity).

Section Run.
Variable oracle : hist -> kact -> ans.

Definition call (a : kact) : M ans := fun w =>
  let r := if feasible (w_k w) a && minor_ok (w_k w) a (oracle (w_tr w) a) then oracle (w_tr w) a else
             match a with KLoopSetFd _ => Busy | _ => Bad end in
  (r, {| w_k := settle (effect (w_k w) a r); w_tr := w_tr w ++ [(a, r)] |}).
Definition is_good (r : ans) : bool := match r with Good _ => true | _ => false end.
Definition worked (a : kact) : M bool := act r <- call a ; ret (is_good r).

(** ** mount.c:106-230 r_setup_loop *)

(** mount.c:132-183: claim a loop device; [None]: gave up, with an error *)
Fixpoint claim (tries : nat) : M (option N) :=
  match tries with
  | 0 => ret None (* 185-192 *)
  | S t =>
    act r <- call KLoopFree ;
    match r with
    | Good n =>
      act r1 <- call (KLoopOpen n) ;
      match r1 with
      | Good _ =>
        act r2 <- call (KLoopSetFd n) ;
        match r2 with
        | Good _ => ret (Some n)
        | Busy => act _ <- call (KLoopClose n) ; claim t (* closed at the start of the next round, or at out: *)
        | _ => act _ <- call (KLoopClose n) ; ret None
        end
      | Busy => claim t
      | _ => ret None
      end
    | _ => ret None
    end
  end.

(** the loop device, whose descriptor stays open; an error is always set, except for the check of the
    argument (mount.c:118) *)
Inductive dmres (A : Type) := Ok' (a : A) | Fail (has_error : bool).
Arguments Ok' {A}. Arguments Fail {A}.

Definition setup_loop (size : Z) : M (dmres N) :=
  if (size <=? 0)%Z then ret (Fail false) else
  act c <- worked KLoopControl ;
  if negb c then ret (Fail true) else
  act n <- claim 10 ;
  match n with
  | None => act _ <- call KLoopControlClose ; ret (Fail true)
  | Some n =>
    act s <- worked (KLoopStatus n size true true) ;
    if negb s then
      act _ <- call (KLoopClear n) ;
      act _ <- call (KLoopClose n) ;
      act _ <- call KLoopControlClose ;
      ret (Fail true)
    else
      act _ <- call (KLoopBlock n 4096) ; (* only a warning, mount.c:214-217 *)
      act _ <- call KLoopControlClose ;
      ret (Ok' n)
  end.

(** ** dm.c *)

(** struct RaucDM: lower device, data size and what goes into the parameters *)
Record dmreq := { r_kind : dk; r_lower : dev; r_size : N; r_digest : string; r_salt : string; r_key : string }.

(** dm.c:185-207 *)
Definition params (q : dmreq) : string :=
  let l := dev_path (r_lower q) in
  match r_kind q with
  | Verity => ("1 " ++ l ++ " " ++ l ++ " 4096 4096 " ++ print_num 10 (r_size q / 4096) ++ " " ++ print_num 10 (r_size q / 4096)
               ++ " sha256 " ++ r_digest q ++ " " ++ r_salt q)%string
  | Crypt => ("aes-cbc-plain64 " ++ r_key q ++ " 0 " ++ l ++ " 0 1 sector_size:4096")%string
  end.

(** dm.c:71-108 check_status, of the answer to DM_TABLE_STATUS (dm.c:266-281) *)
Definition check_status (k : dk) (r : ans) : bool :=
  match r with
  | Said s =>
    match k with
    | Verity => match g_strsplit " "%char s with f :: _ => String.eqb f "V" | [] => false end
    | Crypt => match g_strsplit " "%char s with [] => true | _ => false end
    end
  | _ => false
  end.

(** dm.c:288-307 out_remove_dm, out *)
Definition setup_undo (k : dk) (check : option N) : M (dmres N) :=
  act _ <- (match check with Some m => act _ <- call (KDmClose m) ; ret tt | None => ret tt end) ;
  act _ <- call (KDmRemove k false) ;
  act _ <- call KDmControlClose ;
  ret (Fail true).

(** dm.c:110-308 r_dm_setup; the minor of the new device.  DM_DEV_CREATE assigns the minor, which the
    program learns from DM_DEV_SUSPEND (241). *)
Definition dm_setup (q : dmreq) : M (dmres N) :=
  if (r_size q =? 0)%N then ret (Fail false) (* 130 *) else
  if negb (r_size q mod 4096 =? 0)%N then ret (Fail true) else
  act c <- worked (KDmControl ForSetup) ;
  if negb c then ret (Fail true) else
  act cr <- call (KDmCreate (r_kind q)) ;
  match cr with
  | Good m =>
    if Nat.leb 1024 (String.length (params q)) then setup_undo (r_kind q) None else
    act l <- worked (KDmLoad (r_kind q) {| t_sectors := r_size q / 512; t_params := params q; t_lower := r_lower q; t_ro := true |}) ;
    if negb l then setup_undo (r_kind q) None else
    act u <- worked (KDmResume (r_kind q)) ;
    if negb u then setup_undo (r_kind q) None else
    act o <- worked (KDmOpen m) ;
    if negb o then setup_undo (r_kind q) None else
    act rd <- worked (KDmRead m) ;
    if negb rd then setup_undo (r_kind q) (Some m) else
    act st <- call (KDmStatus (r_kind q)) ;
    if negb (check_status (r_kind q) st) then setup_undo (r_kind q) (Some m) else
    act _ <- call (KDmClose m) ;
    act _ <- call KDmControlClose ;
    ret (Ok' m)
  | _ => act _ <- call KDmControlClose ; ret (Fail true)
  end.

(** dm.c:310-364 r_dm_remove; a failure is only a warning for every caller *)
Definition dm_remove (k : dk) (deferred : bool) : M unit :=
  act c <- worked (KDmControl ForRemoval) ;
  if negb c then ret tt else
  act _ <- call (KDmRemove k deferred) ;
  act _ <- call KDmControlClose ;
  ret tt.

(** ** bundle.c *)

Inductive format := Plain | FVerity | FCrypt.
(** RaucBundle and the fields of its manifest; [b_external]: the result of check_manifest_external *)
Record bundle := {
  b_size : Z; b_signature_verified : bool; b_payload_verified : bool; b_verification_disabled : bool;
  b_format : format; b_external : bool; b_verity_size : N; b_hash : string; b_salt : string; b_key : string }.
(** bundle.c:2931, 2999, 3011: goffset - guint64, modulo 2^64 *)
Definition data_size (b : bundle) : N := Z.to_N ((b_size b - Z.of_N (b_verity_size b)) mod 2 ^ 64).
Definition verity_req (b : bundle) (n : N) : dmreq :=
  {| r_kind := Verity; r_lower := DLoop n; r_size := data_size b; r_digest := b_hash b; r_salt := b_salt b; r_key := "" |}.
Definition crypt_req (b : bundle) (m : N) : dmreq :=
  {| r_kind := Crypt; r_lower := DDm m; r_size := data_size b; r_digest := ""; r_salt := ""; r_key := b_key b |}.

(** mount.c:20 *)
Definition mount_flags : list string := ["MS_NODEV"; "MS_NOSUID"; "MS_RDONLY"].

(** bundle.c:2912-2961 prepare_verity *)
Definition prepare_verity (b : bundle) (pre_check : bool) (n : N) : M (dmres unit) :=
  if negb (b_external b) then ret (Fail true) else
  act v <- dm_setup (verity_req b n) ;
  match v with
  | Fail e => ret (Fail e)
  | Ok' m =>
    act c <- (if pre_check then worked (KReadAll (DDm m)) else ret true) ;
    if negb c then act _ <- dm_remove Verity false ; ret (Fail true) else
    act mo <- worked (KMount (DDm m) mount_flags) ;
    act _ <- dm_remove Verity true ;
    if mo then ret (Ok' tt) else ret (Fail true)
  end.

(** bundle.c:2978-3057 prepare_crypt *)
Definition prepare_crypt (b : bundle) (pre_check : bool) (n : N) : M (dmres unit) :=
  if negb (b_external b) then ret (Fail true) else
  act v <- dm_setup (verity_req b n) ;
  match v with
  | Fail e => ret (Fail e)
  | Ok' m =>
    act y <- dm_setup (crypt_req b m) ;
    match y with
    | Fail e => act _ <- dm_remove Verity false ; ret (Fail e)
    | Ok' m' =>
      act c <- (if pre_check then worked (KReadAll (DDm m')) else ret true) ;
      if negb c then act _ <- dm_remove Crypt true ; act _ <- dm_remove Verity true ; ret (Fail true) else
      act mo <- worked (KMount (DDm m') mount_flags) ;
      act _ <- dm_remove Crypt true ;
      act _ <- dm_remove Verity true ;
      if mo then ret (Ok' tt) else ret (Fail true)
    end
  end.

(** bundle.c:3112-3149: plain bundles; 3172-3176 umount *)
Definition mount_plain (n : N) : M (dmres unit) :=
  act mo <- worked (KMount (DLoop n) mount_flags) ;
  if negb mo then ret (Fail true) else
  act ma <- worked KManifest ;
  if ma then ret (Ok' tt) else
  act _ <- call KUmount ;
  ret (Fail true).

(** g_error ends the process *)
Inductive outcome := Mounted | Failed (has_error : bool) | Aborted.

(** bundle.c:3059-3184 mount_bundle *)
Definition mount_bundle (b : bundle) (pre_check : bool) : M outcome :=
  act d <- worked KMkdir ;
  if negb d then ret (Failed true) else
  if negb (b_signature_verified b || b_verification_disabled b) then ret Aborted (* 3083 *) else
  act l <- setup_loop (b_size b) ;
  match l with
  | Fail e => act _ <- call KRmdir ; ret (Failed e)
  | Ok' n =>
    let finish (r : dmres unit) : M outcome :=
      match r with
      | Ok' _ => act _ <- call (KLoopClose n) ; ret Mounted
      | Fail e => act _ <- call KRmdir ; act _ <- call (KLoopClose n) ; ret (Failed e)
      end in
    match b_format b with
    | Plain => if negb (b_payload_verified b || b_verification_disabled b) then ret Aborted (* 3117 *) else
               act r <- mount_plain n ; finish r
    | FVerity => act r <- prepare_verity b pre_check n ; finish r
    | FCrypt => act r <- prepare_crypt b pre_check n ; finish r
    end
  end.

(** bundle.c:3186-3219 umount_bundle of a local bundle *)
Definition umount_bundle : M bool :=
  act u <- worked KUmount ;
  if negb u then ret false else
  act _ <- call KRmdir ;
  ret true.
End Run.
Arguments Ok' {A}. Arguments Fail {A}.
