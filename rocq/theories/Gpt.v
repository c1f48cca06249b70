(** Model of src/gpt.c and of the boot-gpt-switch handler.  The partition table is abstract
    (entry number, first and last sector); libfdisk is trusted to read it, and to replace
    it so that after a power loss either the old or the new table is found. *)
From Verif Require Import Base Disk ExactIO BootRegion.

Record gpart := mkGpart { gp_no : nat; gp_start : N; gp_end : N }.
Definition gtable := list gpart.

(** device = block content + table; [g_writes] = tables written, each with the number of
    data events issued before *)
Record gst := mkGst { g_io : io; g_tab : gtable; g_writes : list (nat * gtable) }.

Definition g_ok (o : oracle) (g : gst) : bool * gst :=
  let '(b, st) := sys_ok o (g_io g) in (b, mkGst st (g_tab g) (g_writes g)).

(** fdisk_get_partition(cxt, 0) *)
Definition gpt_boot (t : gtable) : option gpart := find (fun p => Nat.eqb (gp_no p) 0) t.

(** gpt.c:84-185 check_region; [gr] = grain size, [ns] = number of sectors *)
Definition gpt_overlaps (ss rs rz : N) (p : gpart) : bool :=
  negb (Nat.eqb (gp_no p) 0) &&
  ((rs / ss <=? gp_end p)%N && (gp_start p <=? rs / ss + rz / ss - 1)%N).
Definition gpt_check_region (ss gr ns rs rz : N) (t : gtable) : bool :=
  negb ((rs <? 34 * 512) || (rz =? 0))%N &&
  (rs mod gr =? 0)%N && (rz mod (2 * gr) =? 0)%N &&
  (rs / ss <? ns)%N && (w64 (rs + rz) / ss <? ns)%N &&
  negb (existsb (gpt_overlaps ss rs rz) t) &&
  existsb (fun p => Nat.eqb (gp_no p) 0) t.

(** gpt.c:187-251 r_gpt_switch_get_inactive_partition; open and check_gpt (46-82) are one
    oracle entry each *)
Definition gpt_get_inactive (o : oracle) (ss gr ns rs rz : N) (g : gst) : out bpart * gst :=
  let '(ok, g1) := g_ok o g in
  if negb ok then (Failed, g1)
  else let '(ok, g2) := g_ok o g1 in
  if negb ok then (Failed, g2)
  else if negb (gpt_check_region ss gr ns rs rz (g_tab g2)) then (Failed, g2)
  else match gpt_boot (g_tab g2) with
       | None => (Failed, g2)
       | Some pa =>
           if (rs / ss =? gp_start pa)%N then (Done (mkBpart (w64 (rs + rz / 2)) (rz / 2)), g2)
           else if (w64 (rs + rz / 2) / ss =? gp_start pa)%N then (Done (mkBpart rs (rz / 2)), g2)
           else (Failed, g2)
       end.

(** fdisk_set_partition on entry 0: only the location changes *)
Definition set_boot_entry (s z : N) (t : gtable) : gtable :=
  map (fun p => if Nat.eqb (gp_no p) 0 then mkGpart 0 s (s + z - 1)%N else p) t.
(** fdisk_write_disklabel *)
Definition write_label (o : oracle) (t : gtable) (g : gst) : bool * gst :=
  let w := (List.length (io_trace (g_io g)), t) in
  let '(ok, g1) := g_ok o g in
  (* an error may be reported after the table has been replaced *)
  let '(hit, g2) := g_ok o g1 in
  if ok || hit then (ok, mkGst (g_io g2) t (g_writes g2 ++ [w])) else (ok, g2).

(** gpt.c:253-337 r_gpt_switch_set_boot_partition; [chg] = fdisk_label_is_changed *)
Definition gpt_set_boot (o : oracle) (ss : N) (chg : bool) (bp : bpart) (g : gst) : out unit * gst :=
  let '(ok, g1) := g_ok o g in
  if negb ok then (Failed, g1)
  else let '(ok, g2) := g_ok o g1 in
  if negb ok then (Failed, g2)
  else let '(ok, g3) := if chg then write_label o (g_tab g2) g2 else (true, g2) in
  if negb ok then (Failed, g3)
  else let '(ok, g4) := g_ok o g3 in                         (* verify the old table *)
  if negb ok then (Failed, g4)
  else match gpt_boot (g_tab g4) with
       | None => (Failed, g4)
       | Some _ =>
           let t' := set_boot_entry (bp_start bp / ss) (bp_size bp / ss) (g_tab g4) in
           let '(ok, g5) := g_ok o g4 in                      (* set_partition, verify the new table *)
           if negb ok then (Failed, g5)
           else let '(ok, g6) := write_label o t' g5 in
           if negb ok then (Failed, g6) else (Done tt, g6)
       end.

Definition g_lift {A} (f : io -> out A * io) (g : gst) : out A * gst :=
  let '(r, st) := f (g_io g) in (r, mkGst st (g_tab g) (g_writes g)).

(** update_handler.c:2155-2233 img_to_boot_gpt_switch_handler *)
Definition gpt_handler (fuel : nat) (o : oracle) (dsz ss gr ns rs rz : N) (chg : bool) (img : list byte) (size : N) (g : gst)
  : out unit * gst :=
  match gpt_get_inactive o ss gr ns rs rz g with
  | (Failed, g1) => (Failed, g1)
  | (Running, g1) => (Running, g1)
  | (Done bp, g1) =>
      if (bp_size bp <? size)%N then (Failed, g1)
      else
        let '(ok, g2) := g_ok o g1 in                           (* pre-install hook *)
        if negb ok then (Failed, g2)
        else match g_lift (clear_part fuel o dsz bp) g2 with
             | (Done _, g3) =>
                 match g_lift (write_part fuel o dsz ss img size bp 0) g3 with
                 | (Done _, g4) =>
                     let '(ok, g5) := g_ok o g4 in              (* post-install hook *)
                     if negb ok then (Failed, g5) else gpt_set_boot o ss chg bp g5
                 | (r, g4) => (r, g4)
                 end
             | (r, g3) => (r, g3)
             end
  end.
