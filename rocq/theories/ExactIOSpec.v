(** Vocabulary of C17 and C18. *)
From Verif Require Import Base Disk.

(** the live device content is the initial content with the trace applied: every function
    preserves this *)
Definition consistent (d0 : disk) (st : io) : Prop := forall p, play d0 (io_trace st) p = io_disk st p.

(** no system call fails and no interruptions or empty transfers for ever *)
Definition no_failures (o : oracle) : Prop := forall k, match o k with SCount n => (0 < n)%N | _ => False end.
Definition never_fails (o : oracle) : Prop := forall k, o k <> SFail.

(** the writes in the trace put the bytes [l] at consecutive places from [off], each byte
    once *)
Inductive consecutive : N -> list ev -> list byte -> Prop :=
| cons_nil off : consecutive off [] []
| cons_write off a tr l : consecutive (off + lenN a) tr l -> consecutive off (EW off a :: tr) (a ++ l).
