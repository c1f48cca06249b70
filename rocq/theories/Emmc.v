(** Model of src/emmc.c and of the boot-emmc handler (src/update_handler.c).  Two boot
    partitions of [dsz] bytes each and the PARTITION_CONFIG byte of the EXT_CSD register. *)
From Verif Require Import Base Disk ExactIO BootRegion.

(** emmc.c:38-86 r_emmc_read_bootpart, given the register: (cfg & 0x38) >> 3 *)
Inductive bootpart := BpNone | BpPart (i : nat) | BpError.
Definition read_bootpart (cfg : N) : bootpart :=
  match N.shiftr (N.land cfg 56) 3 with
  | 0%N => BpNone
  | 1%N => BpPart 0
  | 2%N => BpPart 1
  | _ => BpError
  end.

(** emmc.c:102-144 r_emmc_write_bootpart: value written to the register *)
Definition bootpart_value (cfg : N) (i : nat) : N :=
  N.lor (N.land cfg 64) (if Nat.eqb i 0 then 8 else if Nat.eqb i 1 then 16 else 0).

(** include/emmc.h:17 INACTIVE_BOOT_PARTITION *)
Definition inactive_part (i : nat) : nat := Nat.modulo (i + 1) 2.

(** [e_writes]: values written to the register, each with the numbers of data events issued before *)
Record emmc := mkEmmc { e_k : nat; e_cfg : N; e_part : nat -> disk; e_trace : nat -> list ev; e_writes : list ((nat -> nat) * N) }.
Definition e_io (e : emmc) (i : nat) : io := mkIo (e_k e) (e_part e i) (e_trace e i).
Definition upd {A} (f : nat -> A) (i : nat) (x : A) : nat -> A := fun j => if Nat.eqb j i then x else f j.
Definition e_lift {A} (i : nat) (f : io -> out A * io) (e : emmc) : out A * emmc :=
  let '(r, st) := f (e_io e i) in
  (r, mkEmmc (io_k st) (e_cfg e) (upd (e_part e) i (io_disk st)) (upd (e_trace e) i (io_trace st)) (e_writes e)).
Definition e_ok (o : oracle) (e : emmc) : bool * emmc :=
  (match o (e_k e) with SCount _ => true | _ => false end, mkEmmc (S (e_k e)) (e_cfg e) (e_part e) (e_trace e) (e_writes e)).

(** update_handler.c:97-149 clear_slot; EINTR is handled inside GLib *)
Fixpoint clear_slot_loop (fuel : nat) (o : oracle) (dsz limit fdpos total : N) (st : io) : out unit * io :=
  match fuel with
  | O => (Running, st)
  | S f =>
      let ws := if ((0 <? limit) && (limit <? total + 1024))%N then (limit - total)%N else 1024%N in
      match sys_pwrite o dsz fdpos (repeat 0%N (N.to_nat ws)) st with
      | (RIntr, st') => clear_slot_loop f o dsz limit fdpos total st'
      | (RErr, st') => match o (io_k st) with
                       | SFail => (Failed, st')
                       | _ => (Done tt, st')                 (* no space left: cleared completely *)
                       end
      | (ROk n, st') =>
          if ((0 <? limit) && (limit <=? total + n))%N then (Done tt, st')
          else clear_slot_loop f o dsz limit (fdpos + n) (total + n) st'
      end
  end.
Definition clear_slot (fuel : nat) (o : oracle) (dsz limit : N) (st : io) : out unit * io :=
  let '(ok, st1) := sys_ok o st in
  if negb ok then (Failed, st1)
  else match clear_slot_loop fuel o dsz limit 0 0 st1 with
       | (Done _, st2) => let '(ok, st3) := sys_ok o st2 in ((if ok then Done tt else Failed), st3)
       | (r, st2) => (r, st2)
       end.

(** update_handler.c:52-94 check_image_size on a block device *)
Definition check_image_size (dsz limit size : N) : bool :=
  negb ((0 <? limit) && (limit <? size))%N && negb (dsz <? size)%N.

(** update_handler.c:689-727 copy_raw_image_to_dev *)
Definition copy_to_dev (fuel : nat) (o : oracle) (dsz ss limit : N) (img : list byte) (size : N) (st : io) : out unit * io :=
  let '(ok, st1) := sys_ok o st in
  if negb ok then (Failed, st1)
  else if negb (check_image_size dsz limit size) then (Failed, st1)
  else match copy_raw_image fuel o dsz ss img size 0 0 st1 with
       | (Done _, st2) => let '(ok, st3) := sys_ok o st2 in ((if ok then Done tt else Failed), st3)
       | (r, st2) => (r, st2)
       end.

(** update_handler.c:2247-2317 copy_img_to_emmc_bootpart; sys_ok: force_ro off, hooks, force_ro on *)
Definition copy_to_bootpart (fuel : nat) (o : oracle) (dsz ss limit : N) (img : list byte) (size : N) (st : io) : out unit * io :=
  let '(ok, st1) := sys_ok o st in
  if negb ok then (Failed, st1)
  else let '(ok, st2) := sys_ok o st1 in
  if negb ok then (Failed, st2)
  else match clear_slot fuel o dsz limit st2 with
       | (Done _, st3) =>
           match copy_to_dev fuel o dsz ss limit img size st3 with
           | (Done _, st4) =>
               let '(ok, st5) := sys_ok o st4 in
               if negb ok then (Failed, st5)
               else let '(ok, st6) := sys_ok o st5 in ((if ok then Done tt else Failed), st6)
           | (r, st4) => (r, st4)
           end
       | (r, st3) => (r, st3)
       end.

(** the ioctl that writes the register: result and effect are independent (an error may be
    reported late; some kernels report success without effect, see update_handler.c:2419) *)
Definition write_cfg (o : oracle) (v : N) (e : emmc) : bool * emmc :=
  let '(ok, e1) := e_ok o e in
  let '(hit, e2) := e_ok o e1 in
  (ok, if hit then mkEmmc (e_k e2) v (e_part e2) (e_trace e2) (e_writes e2 ++ [(fun i => List.length (e_trace e2 i), v)]) else e2).

(** update_handler.c:2319-2429 img_to_boot_emmc_handler *)
Definition emmc_handler (fuel : nat) (o : oracle) (dsz ss limit : N) (img : list byte) (size : N) (e : emmc) : out unit * emmc :=
  let '(ok, e1) := e_ok o e in                                  (* realpath, open, read the register *)
  if negb ok then (Failed, e1)
  else
    match (match read_bootpart (e_cfg e1) with BpError => None | BpNone => Some 1 | BpPart i => Some i end) with
    | None => (Failed, e1)
    | Some active =>
        let q := inactive_part active in
        match e_lift q (copy_to_bootpart fuel o dsz ss limit img size) e1 with
        | (Done _, e2) =>
            let '(ok, e3) := e_ok o e2 in                       (* open, read the register *)
            if negb ok then (Failed, e3)
            else
              let '(ok, e4) := write_cfg o (bootpart_value (e_cfg e3) q) e3 in
              if negb ok then (Failed, e4)
              else
                let '(ok, e5) := e_ok o e4 in                   (* read back *)
                if negb ok then (Failed, e5)
                else match read_bootpart (e_cfg e5) with
                     | BpError => (Failed, e5)
                     | BpNone => (Done tt, e5)
                     | BpPart after => ((if Nat.eqb active after then Failed else Done tt), e5)
                     end
        | (r, e2) => (r, e2)
        end
    end.
