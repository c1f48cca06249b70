(** Model of finding slots that are mounted by others: install.c:65-90 resolve_loop_device,
    92-130 update_external_mount_points; slot.c:61-77 r_slot_find_by_device. *)
From Verif Require Import Base Slot.
Open Scope list_scope.

(** an entry of the mount table (GUnixMountEntry) *)
Record mentry := mkMentry { me_device : string; me_path : string }.

Definition is_digit (c : ascii) : bool := (48 <=? nat_of_ascii c)%nat && (nat_of_ascii c <=? 57)%nat.
(** \d+, greedy *)
Fixpoint digits (s : string) : string :=
  match s with
  | String c r => if is_digit c then String c (digits r) else ""
  | EmptyString => ""
  end.
(** install.c:69-76: the first match of "/dev/(loop\d+)(p\d+)?" anywhere in the name, group 1
    (ASCII digits only) *)
Fixpoint loop_name (s : string) : option string :=
  match s with
  | EmptyString => None
  | String _ r =>
      if has_prefix "/dev/loop" s && negb (String.eqb (digits (sdrop 9 s)) "") then Some ("loop" ++ digits (sdrop 9 s))%string
      else loop_name r
  end.
(** install.c:65-90 resolve_loop_device; [sys]: the content of
    /sys/block/<name>/loop/backing_file *)
Definition resolve_loop (sys : string -> option string) (device : string) : option string :=
  match loop_name device with
  | None => Some device
  | Some n => option_map chomp (sys n)
  end.

(** slot.c:61-77 r_slot_find_by_device: the first in the order of the hash table *)
Definition find_by_device (slots : list slot) (device : string) : option slot :=
  find (fun s => String.eqb (sl_device s) device) slots.

(** ext_mount_point by slot name *)
Definition mounts := string -> option string.
(** install.c:97-104 *)
Definition clear_mounts (slots : list slot) (e : mounts) : mounts := fold_left (fun e s => upd e (sl_name s) None) slots e.
(** install.c:107-127 *)
Fixpoint scan_mounts (sys : string -> option string) (slots : list slot) (table : list mentry) (e : mounts) : bool * mounts :=
  match table with
  | [] => (true, e)
  | m :: r =>
      match resolve_loop sys (me_device m) with
      | None => (false, e)
      | Some d =>
          match find_by_device slots d with
          | Some s => match e (sl_name s) with
                      | Some _ => scan_mounts sys slots r e
                      | None => scan_mounts sys slots r (upd e (sl_name s) (Some (me_path m)))
                      end
          | None => scan_mounts sys slots r e
          end
      end
  end.
(** install.c:92-130 update_external_mount_points *)
Definition update_external_mounts (sys : string -> option string) (slots : list slot) (table : list mentry) (e : mounts) : bool * mounts :=
  scan_mounts sys slots table (clear_mounts slots e).
