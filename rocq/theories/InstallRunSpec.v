(** Vocabulary for C04-C06 and C46. *)
From Verif Require Import Base Slot Image Handlers Install InstallSpec InstallRun.

(** Every recorded "ok" (in memory or on disk) is true: the slot then holds the
    complete image with the recorded digest (if one is recorded). *)
Definition status_true {B} (slots : list slot) (w : world B) : Prop :=
  forall s d, In s slots ->
    (w_mem w (sl_name s) = mkStat (Some "ok") d \/ w_disk w (sl_name s) = mkStat (Some "ok") d) ->
    w_dev w (sl_device s) = Whole d.

Definition distinct_devices (slots : list slot) : Prop := NoDup (map sl_device slots).

(** A system's life: installations of arbitrary bundles with arbitrary outcomes,
    run to their end or cut off by a crash at any point, and restarts. *)
Inductive life {B} (bk : backend B) (cf : sysconf) : world B -> world B -> Prop :=
| life_start : forall w, life bk cf w w
| life_install : forall w w1 inp,
    life bk cf w w1 -> life bk cf w (replay w1 (snd (install bk cf inp w1)))
| life_crash : forall w w1 inp n,
    life bk cf w w1 -> life bk cf w (restart (replay w1 (firstn n (snd (install bk cf inp w1)))))
| life_restart : forall w w1, life bk cf w w1 -> life bk cf w (restart w1).

(** A boot loader, abstractly: [cand b n] - the loader would try bootname [n] (now or
    as a fallback); [bt b n] - it boots [n]; [good b] - its variables are sane. *)
Definition boot_laws {B} (slots : list slot) (good : B -> Prop) (cand bt : B -> string -> Prop) (bk : backend B) : Prop :=
  (* it boots candidates, and something whenever there is a candidate *)
  (forall b n, good b -> bt b n -> cand b n) /\
  (forall b n, good b -> cand b n -> exists m, bt b m) /\
  (* marking bad: at no intermediate state another slot changes; in the end the slot is out *)
  (forall b s n x, good b -> In s slots -> sl_bootname s = Some n -> x <> n -> cand b x ->
     (forall b', In b' (bk_bad bk b s) ->
        good b' /\ (cand b' n -> cand b n) /\ forall m, m <> n -> (cand b' m <-> cand b m)) /\
     ~ cand (last (bk_bad bk b s) b) n) /\
  (* marking active: at no intermediate state another slot changes; in the end the slot boots *)
  (forall b s n, good b -> In s slots -> sl_bootname s = Some n -> 
     (forall b', In b' (bk_act bk b s) -> good b' /\ forall m, m <> n -> (cand b' m <-> cand b m)) /\
     bt (last (bk_act bk b s) b) n).

(** All slots of the group of the root slot with bootname [n] are complete. *)
Definition intact {B} (slots : list slot) (w : world B) (n : string) : Prop :=
  forall s r, In s slots -> group_root slots s r -> sl_bootname r = Some n -> w_dev w (sl_device s) <> Torn.

(** Whatever the boot loader may try is intact, and it boots something. *)
Definition boot_safe {B} (slots : list slot) (good : B -> Prop) (cand bt : B -> string -> Prop) (w : world B) : Prop :=
  good (w_boot w) /\ (forall n, cand (w_boot w) n -> intact slots w n) /\ exists n, bt (w_boot w) n.

(** The slots an installation is going to write *)
Definition planned (cf : sysconf) (inp : inputs) : res (list plan) :=
  make_plans (cf_variant cf) (in_images inp)
    (determine_target_group (cf_per_slot cf) (in_states inp) (in_info inp) (cf_slots cf))
    (cf_repos cf) (in_artifacts_ok inp).

(** Conditions on an installation for the boot safety theorem: the running
    system's slot is still a boot candidate, and a bundle that writes a slot of a
    bootable group writes the group's root slot and all slots of the group which
    are not complete. *)
Definition proper {B} (cand : B -> string -> Prop) (cf : sysconf) (inp : inputs) (w : world B) : Prop :=
  (exists realdev bs r m, determine_slot_states realdev (Some bs) (cf_slots cf) = Ok (in_states inp) /\
     In r (cf_slots cf) /\ sl_parent r = None /\ in_states inp (sl_name r) = ST_BOOTED /\
     sl_bootname r = Some m /\ cand (w_boot w) m) /\
  forall ps, planned cf inp = Ok ps ->
    forall s r, In s (cf_slots cf) -> group_root (cf_slots cf) s r -> sl_bootname r <> None ->
      (In s (written ps) -> In r (written ps)) /\
      (In r (written ps) -> w_dev w (sl_device s) = Torn -> In s (written ps)).

(** A system's life in which every installation is [proper] when it starts. *)
Inductive proper_life {B} (cand : B -> string -> Prop) (bk : backend B) (cf : sysconf) : world B -> world B -> Prop :=
| plife_start : forall w, proper_life cand bk cf w w
| plife_install : forall w w1 inp,
    proper_life cand bk cf w w1 -> proper cand cf inp w1 ->
    proper_life cand bk cf w (replay w1 (snd (install bk cf inp w1)))
| plife_crash : forall w w1 inp n,
    proper_life cand bk cf w w1 -> proper cand cf inp w1 ->
    proper_life cand bk cf w (restart (replay w1 (firstn n (snd (install bk cf inp w1)))))
| plife_restart : forall w w1, proper_life cand bk cf w w1 -> proper_life cand bk cf w (restart w1).
