(** Model of the boot partition handlers of src/update_handler.c that work on a region of a
    block device, and of src/mbr.c.  Assumption: hooks do not write to the region.  The
    result of every other library or system call that can fail (open, close, hooks,
    ioctl) is one oracle entry. *)
From Verif Require Import Base Disk ExactIO.

(** a call with no effect on the device *)
Definition sys_ok (o : oracle) (st : io) : bool * io :=
  (match o (io_k st) with SCount _ => true | _ => false end, mkIo (S (io_k st)) (io_disk st) (io_trace st)).

(** lseek(2) on a block device *)
Definition lseek_ok (dsz pos : N) : bool := (pos <=? dsz)%N && (pos <? 2 ^ 63)%N.

(** struct boot_switch_partition (include/update_handler.h) *)
Record bpart := mkBpart { bp_start : N; bp_size : N }.

(** update_handler.c:163-219 clear_boot_switch_partition; clear_count is a 32-bit guint *)
Fixpoint clear_loop (fuel : nat) (o : oracle) (dsz fdpos size cc cs : N) (st : io) : out unit * io :=
  if (cc <? size)%N then
    match fuel with
    | O => (Running, st)
    | S f =>
        let cs' := if (size - cc <? 512)%N then (size - cc)%N else cs in
        match sys_pwrite o dsz fdpos (repeat 0%N (N.to_nat cs')) st with
        | (ROk n, st') => clear_loop f o dsz (fdpos + n) size ((cc + n) mod 2 ^ 32) cs' st'
        | (_, st') => (Failed, st')
        end
    end
  else ((if (cc =? size)%N then Done tt else Failed), st).
Definition clear_part (fuel : nat) (o : oracle) (dsz : N) (bp : bpart) (st : io) : out unit * io :=
  let '(ok, st1) := sys_ok o st in
  if negb ok then (Failed, st1)
  else if negb (lseek_ok dsz (bp_start bp)) then (Failed, st1)
  else clear_loop fuel o dsz (bp_start bp) (bp_size bp) 0 512 st1.

(** update_handler.c:326-419 copy_raw_image.  [img] = content of the image file, [size] = its
    size according to the manifest, [hl] = len_header_last (0 = off), [ss] = sector size. *)
Definition copy_raw_image (fuel : nat) (o : oracle) (dsz ss : N) (img : list byte) (size hl fdpos : N) (st : io) : out unit * io :=
  let '(ok, st1) := sys_ok o st in
  if negb ok then (Failed, st1)
  else if (negb (hl =? 0) && negb (hl =? ss))%N then (Failed, st1)
  else
    let header := firstn (N.to_nat hl) img in
    let rest0 := skipn (N.to_nat hl) img in
    let '(ok, st2) := if (hl =? 0)%N then (true, st1) else sys_ok o st1 in
    if negb ok then (Failed, st2)
    else
      let pos1 := (fdpos + lenN header)%N in
      if (negb (hl =? 0))%N && negb (lseek_ok dsz pos1) then (Failed, st2)
      else
        match copy_stream fuel o dsz size rest0 pos1 st2 with
        | (Running, _, st3) => (Running, st3)
        | (Failed, _, st3) => (Failed, st3)
        | (Done rest, pos2, st3) =>
            let seeksize := (lenN img - lenN rest)%N in
            if negb (seeksize =? size)%N then (Failed, st3)
            else
              let fin (st : io) : out unit * io :=
                let '(ok, st5) := sys_ok o st in
                if negb ok then (Failed, st5)
                else let '(ok, st6) := sys_fsync o st5 in
                     if ok then (Done tt, st6) else (Failed, st6) in
              match header with
              | [] => fin st3
              | _ =>
                  let '(ok, st4) := sys_fsync o st3 in
                  if negb ok then (Failed, st4)
                  else if (pos2 <? seeksize)%N then (Failed, st4)
                  else match write_all fuel o dsz (pos2 - seeksize) header st4 with
                       | (Running, _, st5) => (Running, st5)
                       | (Failed, _, st5) => (Failed, st5)
                       | (Done _, _, st5) => fin st5
                       end
              end
        end.

(** update_handler.c:421-473 write_boot_switch_partition *)
Definition write_part (fuel : nat) (o : oracle) (dsz ss : N) (img : list byte) (size : N) (bp : bpart) (hl : N) (st : io)
  : out unit * io :=
  let '(ok, st1) := sys_ok o st in
  if negb ok then (Failed, st1)
  else if negb (lseek_ok dsz (bp_start bp)) then (Failed, st1)
  else match copy_raw_image fuel o dsz ss img size hl (bp_start bp) st1 with
       | (Done _, st2) => let '(ok, st3) := sys_ok o st2 in if ok then (Done tt, st3) else (Failed, st3)
       | (r, st2) => (r, st2)
       end.

(** ** src/mbr.c *)
Definition le32 (l : list byte) (i : nat) : N :=
  (nth i l 0 + 256 * nth (i + 1) l 0 + 65536 * nth (i + 2) l 0 + 16777216 * nth (i + 3) l 0)%N.
Definition put_le32 (n : N) : list byte := [n mod 256; n / 256 mod 256; n / 65536 mod 256; n / 16777216 mod 256]%N.
(** mbr.c:20-44: partition table entry i starts at 446 + 16 i; start at +8, size at +12 *)
Definition entry_off (i : nat) : nat := 446 + 16 * i.
Definition entry_start (m : list byte) (i : nat) : N := le32 m (entry_off i + 8).
Definition entry_size (m : list byte) (i : nat) : N := le32 m (entry_off i + 12).

(** wrap-around of guint64 *)
Definition w64 (n : N) : N := (n mod 2 ^ 64)%N.

(** mbr.c:64-105 validate_region *)
Definition validate_region (dsz ss rs rz : N) : bool :=
  negb ((rs <? 512) || (rz =? 0))%N &&
  (rs mod ss =? 0)%N && (rz mod (2 * ss) =? 0)%N &&
  negb (dsz =? 0)%N && negb (dsz <=? w64 (rs + rz))%N.

(** mbr.c:107-128 read_mbr: one read(2) *)
Definition read_mbr (o : oracle) (dsz : N) (st : io) : out (list byte) * io :=
  match sys_pread o dsz 0 512 st with
  | (ROk l, st') =>
      if (lenN l =? 512)%N && (nth 510 l 0 =? 85)%N && (nth 511 l 0 =? 170)%N then (Done l, st') else (Failed, st')
  | (_, st') => (Failed, st')
  end.

(** mbr.c:130-173 is_region_free *)
Definition entry_overlaps (ss rs rz : N) (m : list byte) (i : nat) : bool :=
  if (entry_size m i =? 0)%N then false
  else
    let ps := (entry_start m i * ss)%N in
    let pe := w64 (entry_size m i * ss + ps + 2 ^ 64 - 1) in
    ((ps <=? rs)%N && (rs <=? pe)%N) || ((rs <=? ps)%N && (ps <=? w64 (rs + rz + 2 ^ 64 - 1))%N).
Definition is_region_free (ss rs rz : N) (m : list byte) : bool :=
  negb (existsb (entry_overlaps ss rs rz m) [1; 2; 3]).

(** mbr.c:185-202 get_chs; heads or sectors 0: g_return_if_fail, entry unchanged *)
Definition get_chs (old : list byte) (lba heads sectors : N) : list byte :=
  if ((heads =? 0) || (sectors =? 0))%N then old
  else
    let sec := (lba mod sectors + 1)%N in
    let l1 := (lba / sectors)%N in
    let head := (l1 mod heads)%N in
    let l2 := (l1 / heads)%N in
    let cyl := N.land l2 255 in
    [head; N.lor sec (N.land (l2 / 4) 192) mod 256; cyl]%N.

Definition splice (l : list byte) (i : nat) (new : list byte) : list byte :=
  firstn i l ++ new ++ skipn (i + List.length new) l.
Definition slice (l : list byte) (i n : nat) : list byte := firstn n (skipn i l).

(** mbr.c:204-236 get_raw_partition_entry, applied to entry 0 of the MBR *)
Definition new_mbr (ss heads sectors : N) (m : list byte) (bp : bpart) : option (list byte) :=
  if negb (bp_start bp mod ss =? 0)%N || negb (bp_size bp mod ss =? 0)%N then None
  else
    let start := ((bp_start bp / ss) mod 2 ^ 32)%N in
    let size := ((bp_size bp / ss) mod 2 ^ 32)%N in
    let m := splice m (entry_off 0 + 8) (put_le32 start) in
    let m := splice m (entry_off 0 + 12) (put_le32 size) in
    let m := splice m (entry_off 0 + 1) (get_chs (slice m (entry_off 0 + 1) 3) start heads sectors) in
    let m := splice m (entry_off 0 + 5)
               (get_chs (slice m (entry_off 0 + 5) 3) ((start + size + 2 ^ 32 - 1) mod 2 ^ 32) heads sectors) in
    Some m.

(** mbr.c:238-297 r_mbr_switch_get_inactive_partition *)
Definition mbr_get_inactive (o : oracle) (dsz ss rs rz : N) (st : io) : out bpart * io :=
  if negb (validate_region dsz ss rs rz) then (Failed, st)
  else
    match read_mbr o dsz st with
    | (Done m, st1) =>
        if negb (is_region_free ss rs rz m) then (Failed, st1)
        else if (entry_start m 0 =? 0)%N then (Failed, st1)
        else if (rs / ss =? entry_start m 0)%N then (Done (mkBpart (w64 (rs + rz / 2)) (rz / 2)), st1)
        else if (w64 (rs + rz / 2) / ss =? entry_start m 0)%N then (Done (mkBpart rs (rz / 2)), st1)
        else (Failed, st1)
    | (Failed, st1) => (Failed, st1)
    | (Running, st1) => (Running, st1)
    end.

(** mbr.c:299-349 r_mbr_switch_set_boot_partition *)
Definition mbr_set_boot (o : oracle) (dsz ss heads sectors : N) (bp : bpart) (st : io) : out unit * io :=
  let '(ok, st0) := sys_ok o st in
  if negb ok then (Failed, st0)
  else
    match read_mbr o dsz st0 with
    | (Done m, st1) =>
        match new_mbr ss heads sectors m bp with
        | None => (Failed, st1)
        | Some m' =>
            match sys_pwrite o dsz 0 m' st1 with
            | (ROk n, st2) => if (n =? 512)%N then (Done tt, st2) else (Failed, st2)
            | (_, st2) => (Failed, st2)
            end
        end
    | (Failed, st1) => (Failed, st1)
    | (Running, st1) => (Running, st1)
    end.

(** update_handler.c:2062-2145 img_to_boot_mbr_switch_handler *)
Definition mbr_handler (fuel : nat) (o : oracle) (dsz ss heads sectors rs rz : N) (img : list byte) (size : N) (st : io)
  : out unit * io :=
  match mbr_get_inactive o dsz ss rs rz st with
  | (Failed, st1) => (Failed, st1)
  | (Running, st1) => (Running, st1)
  | (Done bp, st1) =>
      if (bp_size bp <? size)%N then (Failed, st1)
      else
        let '(ok, st2) := sys_ok o st1 in                        (* pre-install hook *)
        if negb ok then (Failed, st2)
        else match clear_part fuel o dsz bp st2 with
             | (Done _, st3) =>
                 match write_part fuel o dsz ss img size bp 0 st3 with
                 | (Done _, st4) =>
                     let '(ok, st5) := sys_ok o st4 in           (* post-install hook *)
                     if negb ok then (Failed, st5) else mbr_set_boot o dsz ss heads sectors bp st5
                 | (r, st4) => (r, st4)
                 end
             | (r, st3) => (r, st3)
             end
  end.

(** ** boot-raw-fallback *)
(** update_handler.c:2432-2488 check_if_area_is_clear *)
Fixpoint area_clear_loop (fuel : nat) (o : oracle) (dsz fdpos size : N) (clear : bool) (st : io) : out bool * io :=
  if negb (size =? 0)%N && clear then
    match fuel with
    | O => (Running, st)
    | S f =>
        match sys_pread o dsz fdpos (N.min size 512) st with
        | (ROk l, st') =>
            area_clear_loop f o dsz (fdpos + lenN l) (size - lenN l)
              (forallb (fun b => (b =? 0) || (b =? 255))%N l) st'
        | (_, st') => (Failed, st')
        end
    end
  else (Done clear, st).
Definition area_is_clear (fuel : nat) (o : oracle) (dsz start size : N) (st : io) : out bool * io :=
  let '(ok, st1) := sys_ok o st in
  if negb ok then (Failed, st1)
  else if negb (lseek_ok dsz start) then (Failed, st1)
  else area_clear_loop fuel o dsz start size true st1.

Definition update_half (fuel : nat) (o : oracle) (dsz ss : N) (img : list byte) (size : N) (bp : bpart) (st : io) : out unit * io :=
  match clear_part fuel o dsz bp st with
  | (Done _, st1) => write_part fuel o dsz ss img size bp 512 st1
  | (r, st1) => (r, st1)
  end.

(** update_handler.c:2490-2590 img_to_boot_raw_fallback_handler *)
Definition raw_fallback_handler (fuel : nat) (o : oracle) (dsz ss rs rz : N) (img : list byte) (size : N) (st : io) : out unit * io :=
  let half := (rz / 2)%N in
  if negb (rs mod 512 =? 0)%N then (Failed, st)
  else if negb (half mod 512 =? 0)%N then (Failed, st)
  else if (half <? size)%N then (Failed, st)
  else
    let '(ok, st1) := sys_ok o st in                             (* pre-install hook *)
    if negb ok then (Failed, st1)
    else
      let fallback := mkBpart (w64 (rs + half)) half in
      let primary := mkBpart rs half in
      match area_is_clear fuel o dsz rs 512 st1 with
      | (Failed, st2) => (Failed, st2)
      | (Running, st2) => (Running, st2)
      | (Done clear, st2) =>
          let first := if clear then primary else fallback in
          let second := if clear then fallback else primary in
          match update_half fuel o dsz ss img size first st2 with
          | (Done _, st3) =>
              match update_half fuel o dsz ss img size second st3 with
              | (Done _, st4) => let '(ok, st5) := sys_ok o st4 in if ok then (Done tt, st5) else (Failed, st5)
              | (r, st4) => (r, st4)
              end
          | (r, st3) => (r, st3)
          end
      end.
