(** Vocabulary of C21: the dm-verity on-disk format (hash type 1, 4096 byte blocks, SHA-256). *)
From Verif Require Import Base Disk HashIndex Verity.

(** block [q] of a file; [vbsn] = 4096 *)
Definition vblock (d : disk) (q : N) : list byte := dread d (q * 4096) vbsn.

(** number of blocks in level [l]; level 0 is the data *)
Fixpoint lcount (n : N) (l : nat) : N := match l with O => n | S m => ((lcount n m + 127) / 128)%N end.
(** blocks of levels [l]+1 .. [l]+k *)
Fixpoint above (n : N) (l k : nat) : N := match k with O => 0%N | S k' => (lcount n (S l) + above n (S l) k')%N end.
(** the top level has one block, and no lower level has *)
Definition depth (n : N) (L : nat) : Prop := lcount n L = 1%N /\ forall l, l < L -> lcount n l <> 1%N.
(** the levels are stored behind the data, top level first *)
Definition lstart (n : N) (L l : nat) : N := match l with O => 0%N | S _ => (n + above n l (L - l))%N end.
Definition vtotal (n : N) (L : nat) : N := (n + above n 0 L)%N.

(** the digests of [k] blocks from [q] on *)
Fixpoint digests (H : list byte -> digest) (salt : list byte) (d : disk) (q : N) (k : nat) : list byte :=
  match k with O => [] | S m => H (salt ++ vblock d q) ++ digests H salt d (q + 1)%N m end.
(** a hash block: the digests of its children, padded with zeros *)
Definition is_parent (H : list byte -> digest) (salt : list byte) (d : disk) (q child : N) (k : nat) : Prop :=
  vblock d q = digests H salt d child k ++ repeat 0%N (vbsn - 32 * k).
(** the children of block [j] of a level, when the level below has [c] blocks *)
Definition children (c j : N) : nat := N.to_nat (N.min 128 (c - 128 * j)).

Definition verity_format (H : list byte -> digest) (salt : list byte) (d : disk) (n : N) (L : nat) (root : digest) : Prop :=
  depth n L /\
  (forall l j, l < L -> (j < lcount n (S l))%N ->
     is_parent H salt d (lstart n L (S l) + j) (lstart n L l + 128 * j) (children (lcount n l) j)) /\
  root = H (salt ++ vblock d (lstart n L L)).

Definition no_errors (o : voracle) : Prop := forall k, o k = None.
