(** Vocabulary of C77. *)
From Verif Require Import Base Trees.
Open Scope list_scope.

(** [q] is [p] or below it *)
Definition below (p q : path) : Prop := exists r, q = p ++ r.
(** the directories above [p] are directories, not links *)
Definition real_dirs (f : fs) (p : path) : Prop :=
  forall a b, p = a ++ b -> a <> [] -> b <> [] -> exists d, lookup f a = Some (mkNode KDir d).
(** entries are in directories; each is there once *)
Definition wf_fs (f : fs) : Prop :=
  NoDup (map fst f) /\
  forall a c n, lookup f (a ++ [c]) = Some n -> a <> [] -> exists d, lookup f a = Some (mkNode KDir d).
(** [q] can be reached from [p] without entering another file system *)
Definition same_fs (f : fs) (p q : path) (dev : N) : Prop :=
  exists r, q = p ++ r /\ forall a b, r = a ++ b -> exists n, lookup f (p ++ a) = Some n /\ nd_dev n = dev.
