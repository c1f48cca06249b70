(** Model of the life of a streamed bundle: the server process, the socket to it and the NBD device
    (src/nbd.c:42-330, 1063-1135, 1194-1440; src/bundle.c:2326-2352, 3059-3120, 3180-3250;
    src/install.c:1555-1683; src/main.c:2510-2555, 3110-3125).

    Simplifications: descriptors get numbers that are never used again; the content of requests and replies is C33, C34 and
    C70; what is mounted on top of the device is C61 (here: it works or not, and may keep the device open). *)
From Verif Require Import Base.
Open Scope list_scope.

(** ** the world around rauc *)
Inductive proc := NoServer | Running | Exited | Reaped.
(** a connected NBD device: is DISCONNECT_ON_CLOSE set, and what has it open besides rauc itself (the mounted bundle,
    device-mapper devices) *)
Record nbddev := mkNbddev { nd_auto : bool; nd_used : bool }.
Inductive ev :=
| EPair (a b : nat) | ESpawn | ETalk (fd : nat)        (* a request to the server and its reply *)
| EConnect (fd : nat) | EOpen (fd : nat) | EReconfigure | EDisconnect
| ESendDisc (fd : nat) | EClose (fd : nat) | EWait.
Record st := mkSt {
  s_next : nat;
  s_open : list nat;                 (* descriptors of rauc *)
  s_peer : option nat;               (* rauc's end of the socket to the server *)
  s_devfd : option nat;              (* rauc's descriptor of the device *)
  s_proc : proc;
  s_disc : bool;                     (* NBD_CMD_DISC was sent to the server *)
  s_dev : option nbddev;             (* the device whose socket is the one to the server *)
  s_log : list ev
}.
Definition st0 : st := mkSt 3 [] None None NoServer false None [].

Definition log (e : ev) (s : st) : st := mkSt (s_next s) (s_open s) (s_peer s) (s_devfd s) (s_proc s) (s_disc s) (s_dev s) (s_log s ++ [e]).
Definition set_proc (p : proc) (s : st) : st := mkSt (s_next s) (s_open s) (s_peer s) (s_devfd s) p (s_disc s) (s_dev s) (s_log s).
Definition set_disc (s : st) : st := mkSt (s_next s) (s_open s) (s_peer s) (s_devfd s) (s_proc s) true (s_dev s) (s_log s).
Definition set_dev (d : option nbddev) (s : st) : st := mkSt (s_next s) (s_open s) (s_peer s) (s_devfd s) (s_proc s) (s_disc s) d (s_log s).

Definition is_open (fd : nat) (s : st) : bool := existsb (Nat.eqb fd) (s_open s).
(** socketpair(2): the two descriptors; the second one is kept by rauc.  Server, device and messages are from now on the ones of
    this socket *)
Definition socketpair (s : st) : nat * nat * st :=
  let a := s_next s in let b := S a in
  (a, b, mkSt (S b) (a :: b :: s_open s) (Some b) None NoServer false None (s_log s ++ [EPair a b])).
Definition open_dev (s : st) : nat * st :=
  let a := s_next s in (a, mkSt (S a) (a :: s_open s) (s_peer s) (Some a) (s_proc s) (s_disc s) (s_dev s) (s_log s ++ [EOpen a])).
(** the kernel disconnects: NBD_CMD_DISC goes to the server (drivers/block/nbd.c send_disconnects) *)
Definition disconnect (s : st) : st := match s_dev s with Some _ => set_dev None (set_disc s) | None => s end.
(** .. by itself, when DISCONNECT_ON_CLOSE is set and nothing has the device open (nbd_release) *)
Definition devfd_open (s : st) : bool := match s_devfd s with Some d => is_open d s | None => false end.
Definition last_close (s : st) : st :=
  match s_dev s with
  | Some d => if nd_auto d && negb (nd_used d) && negb (devfd_open s) then disconnect s else s
  | None => s
  end.
(** close(2) *)
Definition close (fd : nat) (s : st) : st :=
  last_close (mkSt (s_next s) (filter (fun x => negb (Nat.eqb fd x)) (s_open s)) (s_peer s) (s_devfd s) (s_proc s) (s_disc s) (s_dev s) (s_log s ++ [EClose fd])).
(** g_close, r_fd == -1 is harmless *)
Definition close_opt (o : option nat) (s : st) : st := match o with Some fd => close fd s | None => s end.
(** the server ends when it gets NBD_CMD_DISC or the end of the file (nbd.c:919-945, 689-692): nobody has rauc's end *)
Definition server_ends (s : st) : bool :=
  s_disc s || (match s_dev s with Some _ => false | None => true end && negb (match s_peer s with Some b => is_open b s | None => false end)).

(** ** what happens *)
Inductive cfg := CfgOk | CfgError | CfgDies.         (* the reply to the configuration; CfgDies: the server dies without *)
Inductive rd := RdOk | RdError | RdDies.
Inductive conn := ConnOk | ConnFails | ConnLost.     (* ConnLost: the kernel has connected the device, the answer is lost *)
Record env := mkEnv {
  e_pair : bool; e_prepare : bool; e_spawn : bool;   (* socketpair, nbd_server_child_prepare, fork *)
  e_config : cfg;
  e_reads : list rd;                                 (* reads of check_bundle *)
  e_check : bool;                                    (* .. everything else in it *)
  e_netlink : bool; e_connect : conn; e_open : bool; e_reconf : bool;   (* r_nbd_setup_device *)
  e_mount : bool;                                    (* the rest of mount_bundle works *)
  e_stays : bool;                                    (* .. if not: a device-mapper device stays *)
  e_dies : bool;                                     (* the server dies while the bundle is mounted *)
  e_umount : bool; e_holds : bool;                   (* umount(2) works; a device-mapper device stays nevertheless *)
  e_nl : nat -> bool;                                (* netlink for the k-th r_nbd_remove_device can be used *)
  e_sent : nat -> bool;                              (* its message reaches the kernel *)
  e_code : bool                                      (* the server exits with 0 *)
}.

(** how far rauc gets: a result, g_error (abort), or waiting forever *)
Inductive out (A : Type) := Done (a : A) (s : st) | Aborts (s : st) | Hangs (s : st).
Arguments Done {A}. Arguments Aborts {A}. Arguments Hangs {A}.
Definition andthen {A B} (x : out A) (k : A -> st -> out B) : out B :=
  match x with Done a s => k a s | Aborts s => Aborts s | Hangs s => Hangs s end.

(** RaucNBDServer (sproc, sock), RaucNBDDevice (sock, index_valid), attempts to remove the device so far *)
Record bun := mkBun { b_sproc : bool; b_sock : option nat; b_dev : option (option nat * bool); b_tries : nat }.
Definition bun0 : bun := mkBun false None None 0.

(** nbd.c:1310-1388 r_nbd_start_server with :1096-1128: g_error if the server does not answer.
    A child whose setup fails (nbd.c:1210-1232) counts as one that dies *)
Definition start_server (e : env) (s : st) : out (bool * bun) :=
  if negb (e_pair e) then Done (false, bun0) s
  else
    let '(a, b, s) := socketpair s in
    if negb (e_prepare e) then Done (false, bun0) (close b (close a s))                      (* :1333-1340, out: *)
    else
      let s1 := close a s in                                                                 (* the launcher's end is closed with it *)
      if negb (e_spawn e) then Done (false, bun0) (close b s1)                               (* :1358-1366 *)
      else
        let s2 := log ESpawn (set_proc Running s1) in
        let bu := mkBun true (Some b) None 0 in                                              (* :1373-1374 *)
        let s3 := log (ETalk b) s2 in
        match e_config e with
        | CfgDies => Aborts (set_proc Exited s3)                                             (* :1103-1122 g_error *)
        | CfgError => Done (false, bu) (set_proc Exited s3)                                  (* the server exits, :1000-1006 *)
        | CfgOk => Done (true, bu) s3
        end.

(** nbd.c:1442-1473 r_nbd_read, for the reads of open_remote_bundle (bundle.c:2180-2255) *)
Fixpoint do_reads (rs : list rd) (fd : nat) (s : st) : out bool :=
  match rs with
  | [] => Done true s
  | RdOk :: r => do_reads r fd (log (ETalk fd) s)
  | RdError :: _ => Done false (log (ETalk fd) s)
  | RdDies :: _ => Aborts (set_proc Exited (log (ETalk fd) s))                               (* g_error *)
  end.

(** check_bundle: bundle.c:2326-2352, 2396-2415 and the rest; on errors the bundle is freed by the caller *)
Definition check (e : env) (s : st) : out (bool * bun) :=
  andthen (start_server e s) (fun r s =>
    let '(ok, bu) := r in
    if negb ok then Done (false, bu) s
    else match b_sock bu with
         | None => Done (false, bu) s
         | Some fd => andthen (do_reads (e_reads e) fd s) (fun ok s => Done (ok && e_check e, bu) s)
         end).

(** nbd.c:138-250 r_nbd_setup_device: result, index_valid, the state *)
Definition setup_device (e : env) (sock : option nat) (s : st) : bool * bool * st :=
  if negb (e_netlink e) then (false, false, s)
  else match sock with
       | None => (false, false, s)                                                           (* the kernel refuses descriptor -1 *)
       | Some fd =>
           let s := log (EConnect fd) s in
           match e_connect e with
           | ConnFails => (false, false, s)
           | ConnLost => (false, false, set_dev (Some (mkNbddev false false)) s)
           | ConnOk =>
               let s := set_dev (Some (mkNbddev false false)) s in
               if negb (e_open e) then (false, true, s)                                      (* :208-214 *)
               else
                 let '(d, s) := open_dev s in
                 let s := log EReconfigure s in
                 if negb (e_reconf e) then (false, true, close d s)                          (* :226-230; g_auto(filedesc) *)
                 else (true, true, set_dev (Some (mkNbddev true false)) s)
           end
       end.

(** bundle.c:3059-3185 mount_bundle of a streamed bundle *)
Definition mount (e : env) (bu : bun) (s : st) : bool * bun * st :=
  let sock := b_sock bu in                                                                   (* :3095-3098 *)
  match setup_device e sock s with
  | (false, valid, s) => (false, mkBun (b_sproc bu) sock (Some (None, valid)) (b_tries bu), s)   (* :3100-3106 *)
  | (true, valid, s) =>
      let bu := mkBun (b_sproc bu) None (Some (sock, valid)) (b_tries bu) in
      let used := if e_mount e then true else e_stays e in
      let s := match s_dev s with Some d => set_dev (Some (mkNbddev (nd_auto d) used)) s | None => s end in
      (e_mount e, bu, close_opt (s_devfd s) s)                                               (* :3183 *)
  end.

(** nbd.c:252-318 r_nbd_remove_device for a device with index_valid *)
Definition remove_device (e : env) (bu : bun) (s : st) : bool * bun * st :=
  match b_dev bu with
  | None => (true, bu, s)
  | Some (_, false) => (true, bu, s)
  | Some (sock, true) =>
      let k := b_tries bu in
      if negb (e_nl e k) then (false, mkBun (b_sproc bu) (b_sock bu) (b_dev bu) (S k), s)    (* :269-274 *)
      else
        let s := log EDisconnect s in
        let s := if e_sent e k then disconnect s else s in                                   (* :284-286: errors ignored *)
        (true, mkBun (b_sproc bu) (b_sock bu) (Some (None, false)) (S k), close_opt sock s)  (* :288-295 *)
  end.

(** nbd.c:1390-1440 r_nbd_stop_server *)
Definition stop_server (e : env) (bu : bun) (s : st) : out (bool * bun) :=
  if negb (b_sproc bu) then Done (true, bu) s
  else
    let s := match b_sock bu with
             | Some fd => close fd (set_disc (log (ESendDisc fd) s))                         (* a dead server does not matter: EPIPE *)
             | None => s
             end in
    let s := log EWait s in
    let bu' := mkBun false None (b_dev bu) (b_tries bu) in
    match s_proc s with
    | Exited => Done (e_code e, bu') (set_proc Reaped s)
    | Running => if server_ends s then Done (e_code e, bu') (set_proc Reaped s) else Hangs s
    | NoServer | Reaped => Done (true, bu') s
    end.

(** bundle.c:3187-3217 umount_bundle *)
Definition umount (e : env) (bu : bun) (s : st) : out (bool * bun) :=
  let s := if e_dies e then match s_proc s with Running => set_proc Exited s | _ => s end else s in
  if negb (e_umount e) then Done (false, bu) s                                               (* :3195-3198 *)
  else
    let s := last_close (match s_dev s with Some d => set_dev (Some (mkNbddev (nd_auto d) (e_holds e))) s | None => s end) in
    match remove_device e bu s with
    | (false, bu, s) => Done (false, bu) s
    | (true, bu, s) => stop_server e bu s
    end.

(** bundle.c:3219-3257 free_bundle with nbd.c:51-92 r_nbd_free_device, r_nbd_free_server *)
Definition free (e : env) (bu : bun) (s : st) : out unit :=
  let '(_, bu, s) := remove_device e bu s in
  let bu := mkBun (b_sproc bu) (b_sock bu) None (b_tries bu) in                              (* g_free (nbd_dev) *)
  andthen (stop_server e bu s) (fun _ s => Done tt s).

(** ** the commands *)
(** rauc info, polling: check, free.  The result is the one of check_bundle *)
Definition run_info (e : env) (s : st) : out bool :=
  andthen (check e s) (fun r s => let '(ok, bu) := r in andthen (free e bu s) (fun _ s => Done ok s)).
(** install.c:1555-1683: check, mount, installing, umount, free *)
Definition run_install (e : env) (s : st) : out bool :=
  andthen (check e s) (fun r s =>
    let '(ok, bu) := r in
    if negb ok then andthen (free e bu s) (fun _ s => Done false s)
    else match mount e bu s with
         | (false, bu, s) => andthen (free e bu s) (fun _ s => Done false s)                 (* mount_point is not set *)
         | (true, bu, s) => andthen (umount e bu s) (fun r s => andthen (free e (snd r) s) (fun _ s => Done true s))
         end).
(** main.c:2510-2555 rauc mount: on success the process just exits, which closes its descriptors *)
Definition exit_process (s : st) : st := fold_left (fun s fd => close fd s) (s_open s) s.
Definition run_mount (e : env) (s : st) : out bool :=
  andthen (check e s) (fun r s =>
    let '(ok, bu) := r in
    if negb ok then andthen (free e bu s) (fun _ s => Done false s)
    else match mount e bu s with
         | (false, bu, s) => andthen (free e bu s) (fun _ s => Done false s)
         | (true, _, s) => Done true (exit_process s)
         end).
(** .. and later the user unmounts *)
Definition user_umount (s : st) : st :=
  last_close (match s_dev s with Some d => set_dev (Some (mkNbddev (nd_auto d) false)) s | None => s end).

(** ** privileges: nbd.c:1196-1308 *)
Record cred := mkCred { c_uid : N; c_gid : N; c_groups : list N }.
(** a user in the database: uid, gid, and what getgrouplist gives *)
Record user := mkUser { u_uid : N; u_gid : N; u_groups : list N }.
(** nbd.c:1236-1308 nbd_server_child_prepare: None = error; Some None: privileges are kept.  [db]: getpwnam_r and
    getgrouplist for the sandbox user *)
Definition child_prepare (me : cred) (db : option user) : option (option user) :=
  if negb (N.eqb (c_uid me) 0) && negb (N.eqb (c_gid me) 0) then Some None
  else match db with
       | None => None
       | Some u => Some (Some u)
       end.
(** the kernel: only root may change groups and users *)
Definition setgroups (l : list N) (c : cred) : option cred := if N.eqb (c_uid c) 0 then Some (mkCred (c_uid c) (c_gid c) l) else None.
Definition setgid (g : N) (c : cred) : option cred := if N.eqb (c_uid c) 0 || N.eqb (c_gid c) g then Some (mkCred (c_uid c) g (c_groups c)) else None.
Definition setuid (u : N) (c : cred) : option cred := if N.eqb (c_uid c) 0 || N.eqb (c_uid c) u then Some (mkCred u (c_gid c) (c_groups c)) else None.
Definition obind {A B} (o : option A) (f : A -> option B) : option B := match o with Some a => f a | None => None end.
(** nbd.c:1207-1232 nbd_server_child_setup; None: exit(1) before the server runs.  args->groups is NULL only without groups *)
Definition child_setup (args : option user) (c : cred) : option cred :=
  match args with
  | None => Some c
  | Some u =>
      obind (match u_groups u with [] => Some c | l => setgroups l c end) (fun c =>
      obind (if N.eqb (u_gid u) 0 then Some c else setgid (u_gid u) c) (fun c =>
      if N.eqb (u_uid u) 0 then Some c else setuid (u_uid u) c))
  end.
(** the server with its credentials; None: rauc reports an error, Some None: the child ends before it is a server *)
Definition spawn_server (me : cred) (db : option user) : option (option cred) :=
  match child_prepare me db with
  | None => None
  | Some args => Some (child_setup args me)
  end.
