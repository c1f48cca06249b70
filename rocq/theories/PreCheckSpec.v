(** Vocabulary of C60. *)
From Verif Require Import Base PreCheck.

(** what POSIX promises about the answers: end of file exactly behind the end, and a count only of blocks
    that verify, from the start of the request *)
Definition honest (kernel : device -> nat -> rd) : Prop := forall d c,
  (kernel d c = REof <-> List.length d <= 16 * c) /\
  (forall n, kernel d c = RBlocks n -> 0 < n /\ n <= 16 /\
     forall k, k < n -> 16 * c + k < List.length d /\ nth (16 * c + k) d false = true) /\
  (kernel d c = RErr -> exists k, k < 16 /\ 16 * c + k < List.length d /\ nth (16 * c + k) d false = false).

(** the documentation: "the complete bundle is checked for data corruption" *)
Definition accepts_only_intact (kernel : device -> nat -> rd) : Prop :=
  forall d : device, read_complete kernel d = Some true -> forall i, i < List.length d -> nth i d false = true.

