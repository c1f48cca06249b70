(** Vocabulary of C22 and C24. *)
From Verif Require Import Base Disk ExactIO BootRegion.

(** content of the device after a power loss: some prefix of the events was issued; every
    sector holds the result of the writes up to the last fsync ([b] contains it, [p] has no
    fsync) and of an arbitrary number of later ones *)
Definition crash (ss : N) (d0 : disk) (tr : list ev) (d' : disk) : Prop :=
  exists b p rest, tr = b ++ p ++ rest /\ ~ In ESync p /\
    forall s : N, exists k, forall x, (x / ss = s)%N -> d' x = play d0 (b ++ firstn k p) x.

(** as [crash], for a device that makes writes durable in program order (a write may be torn
    at sector granularity) *)
Definition crash_in_order (ss : N) (d0 : disk) (tr : list ev) (d' : disk) : Prop :=
  exists b p rest, tr = b ++ p ++ rest /\ List.length p <= 1 /\
    forall s : N, exists k, forall x, (x / ss = s)%N -> d' x = play d0 (b ++ firstn k p) x.

(** a single sector (512 bytes) is never transferred partially *)
Definition whole_sectors (o : oracle) : Prop := forall k c, o k = SCount c -> (512 <= c)%N.

(** boot partition according to the MBR *)
Definition mbr_of (d : disk) : list byte := dread d 0 512.
Definition boot_start (ss : N) (d : disk) : N := (entry_start (mbr_of d) 0 * ss)%N.
Definition boot_size (ss : N) (d : disk) : N := (entry_size (mbr_of d) 0 * ss)%N.

(** [d] and [d'] agree except inside [lo, hi) *)
Definition same_outside (lo hi : N) (d d' : disk) : Prop := forall p, ~ (lo <= p < hi)%N -> d' p = d p.
