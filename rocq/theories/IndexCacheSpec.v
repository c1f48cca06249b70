(** Vocabulary for C75. *)
From Verif Require Import Base KeyFile IndexCache.
Open Scope list_scope.

(** 64 hex digits, as C33 guarantees for the digests of images *)
Definition hex_char (c : ascii) : bool :=
  let n := nat_of_ascii c in
  (Nat.leb 48 n && Nat.leb n 57) || (Nat.leb 65 n && Nat.leb n 70) || (Nat.leb 97 n && Nat.leb n 102).
Definition sha256_text (s : string) : Prop := String.length s = 64 /\ all_chars hex_char s = true.

(** the images of a history *)
Definition images {I} (h : list (act I)) : list (img I) := flat_map (fun a => match a with Install i _ | InstallCut i _ _ => [i] | _ => [] end) h.
Definition proper_digests {I} (h : list (act I)) : Prop := forall i d, In i (images h) -> i_digest i = Some d -> sha256_text d.

(** index [j] came with an image of digest [d] *)
Definition came_with {I} (h : list (act I)) (d : string) (j : I) : Prop := exists i, In i (images h) /\ i_digest i = Some d /\ i_index i = Some j.

(** the entries rauc does not own *)
Definition foreign {I} (e : entries I) : entries I := filter (fun e => negb (has_prefix "hash-" (fst e))) e.

(** the index in a sub directory *)
Definition cached {I} (w : st I) (d : string) (j : I) : Prop := In ("hash-" ++ d, Some j)%string (x_dirs w).
