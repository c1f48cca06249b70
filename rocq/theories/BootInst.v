(** The boot loader backends as instances of the installation model: successive
    boot loader states of "mark bad" and "mark active". *)
From Verif Require Import Base Slot Uboot UbootSpec Grub GrubSpec Barebox BareboxSpec InstallRun.

(** U-Boot: one state per fw_setenv call (uboot.c:158-221, 282-338; read access works). *)
Definition uboot_steps (del : bool) (e : env) (ws : writes) : list env :=
  map (fun k => run del e (firstn k ws)) (seq 1 (List.length ws)).

Definition uboot_backend (del : bool) (slots : list slot) (cfg_default cfg_primary : Z) : backend env :=
  mkBackend
    (fun e s => match sl_bootname s with
                | Some b => uboot_steps del e (uboot_set_state (fw_printenv e) cfg_default b false)
                | None => [] end)
    (fun e s => match sl_bootname s with
                | Some b => uboot_steps del e (uboot_set_primary (fw_printenv e) slots cfg_primary s b)
                | None => [] end).

(** what the documented U-Boot script may try, now or after failed attempts *)
Definition uboot_cand (e : env) (n : string) : Prop := In n (order_of e) /\ (0 < left_of e n)%N.
Definition uboot_good (e : env) : Prop := clean_order e /\ e "BOOT_ORDER" <> None.

(** GRUB: one grub-editenv call each (grub.c r_grub_set_state, r_grub_set_primary). *)
Definition grub_backend (slots : list slot) : backend genv :=
  mkBackend
    (fun e s => match sl_bootname s with
                | Some b => [editenv_set e (grub_set_state b false)] | None => [] end)
    (fun e s => match sl_bootname s with
                | Some b => [editenv_set e (grub_set_primary slots s b)] | None => [] end).

Definition grub_cand (e : genv) (n : string) : Prop := In n (gorder e) /\ gready e n = true.
Definition grub_good (slots : list slot) (e : genv) : Prop :=
  wf_genv e /\ forall n, In n (gorder e) <-> In n (targets slots).

(** barebox: one barebox-state call each (barebox.c r_barebox_set_state, r_barebox_set_primary). *)
Definition barebox_backend (slots : list slot) (cfg_default cfg_primary : Z) : backend bbstate :=
  mkBackend
    (fun st s => match sl_bootname s with
                 | Some b => [bb_apply st (barebox_set_state cfg_default b false)] | None => [] end)
    (fun st s => match sl_bootname s with
                 | Some b => match barebox_set_primary st slots cfg_primary s b with
                             | Ok kvs => [bb_apply st kvs]
                             | _ => [] end
                 | None => [] end).

Definition barebox_cand (slots : list slot) (st : bbstate) (n : string) : Prop := In n (targets slots) /\ bb_ready st n.
(** some target of maximal priority (whatever the order among equals) *)
Definition barebox_bt (slots : list slot) (st : bbstate) (n : string) : Prop :=
  barebox_cand slots st n /\ forall c, barebox_cand slots st c -> (prio_of st c <= prio_of st n)%N.
(** uint32 variables, all present *)
Definition barebox_good (slots : list slot) (st : bbstate) : Prop :=
  bb_wf st /\ forall n, In n (targets slots) ->
    st ("bootstate." ++ n ++ ".priority")%string <> None /\ st ("bootstate." ++ n ++ ".remaining_attempts")%string <> None.

