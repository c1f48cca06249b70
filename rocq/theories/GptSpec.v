(** Vocabulary of C22 for GPT. *)
From Verif Require Import Base Disk ExactIO BootRegion BootRegionSpec Gpt.

(** as [crash], with exactly the first [n] events issued *)
Definition crash_at (n : nat) (ss : N) (d0 : disk) (tr : list ev) (d' : disk) : Prop :=
  exists b p rest, tr = b ++ p ++ rest /\ List.length (b ++ p) = n /\ ~ In ESync p /\
    forall s : N, exists k, forall x, (x / ss = s)%N -> d' x = play d0 (b ++ firstn k p) x.

(** power loss on a device with content [d0] and table [t0]: the table found is the old one
    or one of those written; in the latter case all events issued before writing it
    were issued, but those after the last fsync may still be lost *)
Definition gpt_crash (ss : N) (d0 : disk) (t0 : gtable) (tr : list ev) (tw : list (nat * gtable)) (d' : disk) (t' : gtable) : Prop :=
  exists n, crash_at n ss d0 tr d' /\ (t' = t0 \/ exists k, In (k, t') tw /\ k <= n).

(** the boot partition found in the table, as byte offset and length *)
Definition gpt_boot_is (ss : N) (t : gtable) (start size : N) : Prop :=
  exists p, gpt_boot t = Some p /\ (gp_start p * ss = start)%N /\ ((gp_end p + 1 - gp_start p) * ss = size)%N.
