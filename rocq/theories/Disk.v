(** Block devices and the system calls rauc uses on them.  Kernel behaviour, trusted:
    every call transfers any part of the requested bytes, fails or is interrupted, as an
    oracle decides; nothing can be transferred beyond the end of the device. *)
From Verif Require Import Base.

Definition byte := N.
Definition disk := N -> byte.
Definition lenN {A} (l : list A) : N := N.of_nat (List.length l).

Definition dwrite (d : disk) (off : N) (l : list byte) : disk :=
  fun p => if (off <=? p)%N && (p <? off + lenN l)%N then nth (N.to_nat (p - off)) l 0%N else d p.
Fixpoint dread (d : disk) (off : N) (n : nat) : list byte :=
  match n with O => [] | S m => d off :: dread d (off + 1)%N m end.

(** what reaches the device: writes in program order and fsync *)
Inductive ev := EW (off : N) (l : list byte) | ESync.
Definition ev_apply (d : disk) (e : ev) : disk := match e with EW off l => dwrite d off l | ESync => d end.
Definition play (d : disk) (tr : list ev) : disk := fold_left ev_apply tr d.

(** result of the k-th system call: EINTR, another error, or up to n bytes *)
Inductive sysret := SIntr | SFail | SCount (n : N).
Definition oracle := nat -> sysret.
Record io := mkIo { io_k : nat; io_disk : disk; io_trace : list ev }.

(** outcome of a function: success, reported error, or still running (the step bound given
    by the caller is used up) *)
Inductive out (A : Type) := Done (a : A) | Failed | Running.
Arguments Done {A} a. Arguments Failed {A}. Arguments Running {A}.

Inductive sysres (A : Type) := RIntr | RErr | ROk (a : A).
Arguments RIntr {A}. Arguments RErr {A}. Arguments ROk {A} a.

(** read(2)/pread(2): 0 bytes exactly at the end of the device *)
Definition sys_pread (o : oracle) (dsz off n : N) (st : io) : sysres (list byte) * io :=
  let st' := mkIo (S (io_k st)) (io_disk st) (io_trace st) in
  match o (io_k st) with
  | SIntr => (RIntr, st')
  | SFail => (RErr, st')
  | SCount c =>
      (ROk (if (dsz <=? off)%N then []
            else dread (io_disk st) off (N.to_nat (N.min (N.max 1 c) (N.min n (dsz - off))))), st')
  end.

(** write(2)/pwrite(2) *)
Definition sys_pwrite (o : oracle) (dsz off : N) (data : list byte) (st : io) : sysres N * io :=
  let k := S (io_k st) in
  match o (io_k st) with
  | SIntr => (RIntr, mkIo k (io_disk st) (io_trace st))
  | SFail => (RErr, mkIo k (io_disk st) (io_trace st))
  | SCount c =>
      if (dsz <=? off)%N then (RErr, mkIo k (io_disk st) (io_trace st))   (* ENOSPC *)
      else
        let m := N.min c (N.min (lenN data) (dsz - off)) in
        let part := firstn (N.to_nat m) data in
        (ROk m, mkIo k (dwrite (io_disk st) off part) (io_trace st ++ [EW off part]))
  end.

(** fsync(2) *)
Definition sys_fsync (o : oracle) (st : io) : bool * io :=
  let k := S (io_k st) in
  match o (io_k st) with
  | SCount _ => (true, mkIo k (io_disk st) (io_trace st ++ [ESync]))
  | _ => (false, mkIo k (io_disk st) (io_trace st))
  end.
