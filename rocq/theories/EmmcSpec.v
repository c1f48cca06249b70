(** Vocabulary of C23. *)
From Verif Require Import Base Disk ExactIO BootRegion BootRegionSpec GptSpec Emmc.

(** fields of PARTITION_CONFIG: bits 5..3 select the boot partition (0 none, 1, 2, 7 user
    area), bit 6 is BOOT_ACK *)
Definition boot_field (cfg : N) : N := ((cfg / 8) mod 8)%N.
Definition boot_ack (cfg : N) : N := ((cfg / 64) mod 2)%N.

(** power loss: contents of the two partitions and the register; a register value that was
    written takes effect at once *)
Definition emmc_crash (ss : N) (d0 : nat -> disk) (cfg0 : N) (e : emmc) (d' : nat -> disk) (cfg' : N) : Prop :=
  exists n : nat -> nat, (forall i, crash_at (n i) ss (d0 i) (e_trace e i) (d' i)) /\
    (cfg' = cfg0 \/ exists pos, In (pos, cfg') (e_writes e) /\ forall i, (pos i <= n i)%nat).
