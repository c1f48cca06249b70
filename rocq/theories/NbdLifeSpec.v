(** Vocabulary of C81. *)
From Verif Require Import Base NbdLife.

(** nothing of a streamed bundle is left: no descriptor, no server process or zombie, no device *)
Definition nothing_left (s : st) : Prop := s_open s = [] /\ s_dev s = None /\ (s_proc s = NoServer \/ s_proc s = Reaped).

(** the state, however far rauc got *)
Definition state_of {A} (o : out A) : st := match o with Done _ s | Aborts s | Hangs s => s end.

(** descriptors which are open after these calls, if every call used only open ones and none was opened twice; [None]: some
    call used a descriptor that was not open *)
Definition drop_fd (fd : nat) (l : list nat) : list nat := filter (fun x => negb (Nat.eqb x fd)) l.
Definition used (fd : nat) (l : list nat) : option (list nat) := if existsb (Nat.eqb fd) l then Some l else None.
Definition call (l : list nat) (e : ev) : option (list nat) :=
  match e with
  | EPair a b => if existsb (Nat.eqb a) l || existsb (Nat.eqb b) l || Nat.eqb a b then None else Some (a :: b :: l)
  | EOpen a => if existsb (Nat.eqb a) l then None else Some (a :: l)
  | EClose fd => if existsb (Nat.eqb fd) l then Some (drop_fd fd l) else None
  | ETalk fd | EConnect fd | ESendDisc fd => used fd l
  | ESpawn | EReconfigure | EDisconnect | EWait => Some l
  end.
Fixpoint calls (l : list nat) (es : list ev) : option (list nat) :=
  match es with
  | [] => Some l
  | e :: r => match call l e with Some l' => calls l' r | None => None end
  end.
(** the calls of a run that began in [s] *)
Definition calls_since (s : st) (es : list ev) (s' : st) : Prop := s_log s' = s_log s ++ es.

(** the netlink interface of the kernel can be used when the device is removed, and answers are not lost *)
Definition netlink_works (e : env) : Prop := e_connect e <> ConnLost /\ forall k, e_nl e k = true /\ e_sent e k = true.

(** removal attempt [k] has no effect *)
Definition removal_fails (e : env) (k : nat) : Prop := e_nl e k = false \/ e_sent e k = false.
(** the device stays in use although rauc is done with it *)
Definition kept_in_use (e : env) : Prop := (e_mount e = false /\ e_stays e = true) \/ (e_mount e = true /\ (e_umount e = false \/ e_holds e = true)).
(** the device was set up *)
Definition set_up (e : env) : Prop := e_netlink e = true /\ e_connect e = ConnOk /\ e_open e = true /\ e_reconf e = true.

(** the server was started, and dies while rauc waits for an answer *)
Definition dies_early (e : env) : Prop :=
  e_pair e = true /\ e_prepare e = true /\ e_spawn e = true /\
  (e_config e = CfgDies \/ (e_config e = CfgOk /\ exists n r, e_reads e = repeat RdOk n ++ RdDies :: r)).

(** a process of a run of rauc: streaming for information, or for an installation *)
Inductive command := Info | Install.
Definition run (c : command) (e : env) (s : st) : out bool := match c with Info => run_info e s | Install => run_install e s end.
(** a service that streams again and again *)
Inductive streams (good : env -> Prop) : st -> st -> Prop :=
| Idle s : streams good s s
| Again s c e r s1 s' : good e -> run c e s = Done r s1 -> streams good s1 s' -> streams good s s'.
