(** Vocabulary of C79. *)
From Verif Require Import Base Slot MountPoints.
Open Scope list_scope.

Definition digit (c : ascii) : Prop := In c ["0"; "1"; "2"; "3"; "4"; "5"; "6"; "7"; "8"; "9"]%char.
Definition all_digits (s : string) : Prop := s <> ""%string /\ forall a c b, s = (a ++ String c b)%string -> digit c.
(** names of loop devices and their partitions: /dev/loop<n>, /dev/loop<n>p<m> *)
Definition loop_device (n : string) (d : string) : Prop :=
  all_digits n /\ (d = ("/dev/loop" ++ n)%string \/ exists m, all_digits m /\ d = ("/dev/loop" ++ n ++ "p" ++ m)%string).
(** names without "/dev/loop" and a digit in them *)
Definition ordinary (d : string) : Prop := forall a c b, digit c -> d <> (a ++ "/dev/loop" ++ String c b)%string.

(** the entry [m] mounts the device [d]: under this name, or as a loop device for the file [d]
    (the kernel gives the file name and a line break) *)
Definition mounts_device (sys : string -> option string) (m : mentry) (d : string) : Prop :=
  (ordinary (me_device m) /\ me_device m = d) \/
  (exists n f, loop_device n (me_device m) /\ sys ("loop" ++ n)%string = Some f /\ d = chomp f).
(** each entry is of one of these kinds, and the kernel answers for loop devices *)
Definition plain_table (sys : string -> option string) (table : list mentry) : Prop :=
  forall m, In m table -> ordinary (me_device m) \/ exists n f, loop_device n (me_device m) /\ sys ("loop" ++ n)%string = Some f.

Definition unique_devices (slots : list slot) : Prop := NoDup (map sl_device slots).
