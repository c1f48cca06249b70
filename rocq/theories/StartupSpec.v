(** Vocabulary for C72. *)
From Verif Require Import Base Slot KeyFile Install StatusFile Startup.
Open Scope list_scope.

(** the starts of the service which come as far as the boot event (the artifact repositories could be read): what
    happens to the status file then *)
Definition good_starts {T} (l : list (sstep T)) : list saving :=
  flat_map (fun x => match x with StStart a => if sa_artifacts a then [sa_save a] else [] | _ => [] end) l.

(** [n] times a boot event is logged and then [m] times a restart: the boot event is repeated only until the boot ID
    was saved *)
Inductive announced : list saving -> nat -> nat -> Prop :=
| an_none : announced [] 0 0
| an_saved : forall l, announced (SaveOk :: l) 1 (List.length l)
| an_again : forall x l n m, x <> SaveOk -> announced l n m -> announced (x :: l) (S n) m.

(** the event says what was booted *)
Definition says_boot (slots : list slot) (b : booting) (id : string) (ev : levent) : Prop :=
  (bo_slot b = Some "_external_"%string /\ ev = LExternal id) \/
  (bo_slot b <> Some "_external_"%string /\ exists bs s h, bo_slot b = Some bs /\ In s slots /\
     (sl_bootname s = Some bs \/ sl_name s = bs \/ bo_realdev b (sl_device s) = bs) /\
     ev = LBooted (sl_name s) (match sl_bootname s with Some n => n | None => "" end) id h).

Definition known_slot (slots : list slot) (b : booting) : Prop :=
  exists bs, bo_slot b = Some bs /\
    (bs = "_external_"%string \/ exists s, In s slots /\ (sl_bootname s = Some bs \/ sl_name s = bs \/ bo_realdev b (sl_device s) = bs)).

(** the events of one boot with boot ID [id] *)
Definition boot_once {T} (slots : list slot) (b : booting) (id : string) (l : list (sstep T)) (log : list levent) : Prop :=
  (~ known_slot slots b /\ log = []) \/
  (known_slot slots b /\ exists evs m, log = evs ++ repeat LRestarted m /\ Forall (says_boot slots b id) evs /\ announced (good_starts l) (List.length evs) m).
