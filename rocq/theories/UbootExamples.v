(** Concrete A/B system used by the non-vacuity examples. *)
From Verif Require Import Base BaseLemmas Slot Uboot UbootSpec.

Definition exA := mkSlot "rootfs.0" "rootfs" "/dev/a" "ext4" (Some "A") None false true.
Definition exB := mkSlot "rootfs.1" "rootfs" "/dev/b" "ext4" (Some "B") None false true.
Definition exD := mkSlot "data.0" "data" "/dev/d" "ext4" None None false true.
Definition ex_slots := [exD; exB; exA].
Definition ex_env : env := fun k =>
  if String.eqb k "BOOT_ORDER" then Some "A  B " else
  if String.eqb k "BOOT_A_LEFT" then Some "3" else
  if String.eqb k "BOOT_B_LEFT" then Some "0" else
  if String.eqb k "bootcmd" then Some "run rauc" else None.


Lemma uboot_good_after_bad :
  exists e b, clean_word b = true /\ boots e b /\
    let e1 := run true e (uboot_set_state (fw_printenv e) 0 b false) in
    let e2 := run true e1 (uboot_set_state (fw_printenv e1) 0 b true) in
    uboot_get_state (fw_printenv e2) b = Ok false /\ ~ boots e2 b.
Proof.
  exists ex_env, "A". split; [reflexivity|]. split.
  { exists [], ["B"]. repeat split; constructor. }
  split; [reflexivity|].
  intros (pre & post & Ho & _).
  assert (H : In "A" ["B"]) by (change ["B"] with (order_of (run true (run true ex_env
     (uboot_set_state (fw_printenv ex_env) 0 "A" false)) (uboot_set_state (fw_printenv (run true ex_env
     (uboot_set_state (fw_printenv ex_env) 0 "A" false))) 0 "A" true))); rewrite Ho; apply in_or_app; right; now left).
  destruct H as [H|[]]. discriminate.
Qed.
