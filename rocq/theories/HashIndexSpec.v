(** Vocabulary of C19 and C20. *)
From Verif Require Import Base Disk ExactIO BootRegion Emmc HashIndex.

(** content of chunk [p] of a device *)
Definition chunk_of (d : disk) (p : nat) : list byte := dread d (N.of_nat p * csz) (N.to_nat csz).
(** the data an index refers to, when the target device holds [t] *)
Definition src_disk (s : src) (t : disk) : disk := match s with STarget => t | SOther d _ => d end.
(** the range in which chunks may be used *)
Definition in_range (idx : hidx) (p : nat) : Prop :=
  hi_below idx <= p /\ match hi_from idx with Some f => p < f | None => True end.
(** an index as produced by the functions that open one *)
Definition built (idx : hidx) : Prop :=
  hi_lookup idx = build_lookup (hi_hashes idx) /\ hi_count idx <= List.length (hi_hashes idx).
(** the index file of the bundle belongs to the image *)
Definition describes (H : list byte -> digest) (file : list byte) (img : list byte) : Prop :=
  forall p, p < List.length (file_hashes file) -> (N.of_nat (p + 1) * csz <= lenN img)%N ->
    nth p (file_hashes file) [] = H (chunk_of (file_disk img) p).
Definition covers (file : list byte) (img : list byte) : Prop :=
  (lenN img <= lenN (file_hashes file) * csz)%N.
(** two different blocks with the same hash: what an attacker of SHA-256 would need *)
Definition collision (H : list byte -> digest) (a b : list byte) : Prop := a <> b /\ H a = H b.
(** the device holds the image, except for blocks for which SHA-256 fails *)
Definition holds_image (H : list byte -> digest) (d : disk) (img : list byte) : Prop :=
  forall p, (p < lenN img)%N -> d p = file_disk img p \/
    collision H (chunk_of d (N.to_nat (p / csz))) (chunk_of (file_disk img) (N.to_nat (p / csz))).
