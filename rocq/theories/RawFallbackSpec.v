(** Vocabulary of C24. *)
From Verif Require Import Base Disk ExactIO BootRegion BootRegionSpec.

(** image [l] is stored completely at [pos] *)
Definition holds (d : disk) (pos : N) (l : list byte) : Prop := dread d pos (List.length l) = l.
(** the 512 bytes at [pos] look erased *)
Definition header_clear (d : disk) (pos : N) : Prop := forall i, (i < 512)%N -> d (pos + i)%N = 0%N \/ d (pos + i)%N = 255%N.
(** a boot image header that does not look erased *)
Definition real_header (l : list byte) : Prop := exists i, i < 512 /\ nth i l 0%N <> 0%N /\ nth i l 0%N <> 255%N.

(** the half a ROM loader uses which accepts the primary half exactly if it finds there
    one of the given headers *)
Definition rom_primary (d : disk) (rs : N) (a b : list byte) : Prop :=
  dread d rs 512 = firstn 512 a \/ dread d rs 512 = firstn 512 b.
