(** Model of the exact transfer helpers of src/utils.c and of
    r_copy_stream_with_progress in src/update_utils.c. *)
From Verif Require Import Base Disk.

(** utils.c:644-674 r_pread_exact; [acc] = data[0..pos) *)
Fixpoint pread_loop (fuel : nat) (o : oracle) (dsz off : N) (size : N) (acc : list byte) (st : io)
  : out (list byte) * io :=
  if (lenN acc <? size)%N then
    match fuel with
    | O => (Running, st)
    | S f =>
        match sys_pread o dsz (off + lenN acc) (size - lenN acc) st with
        | (RIntr, st') => pread_loop f o dsz off size acc st'
        | (RErr, st') => (Failed, st')
        | (ROk [], st') => (Failed, st')     (* end of file *)
        | (ROk l, st') => pread_loop f o dsz off size (acc ++ l) st'
        end
    end
  else (Done acc, st).
Definition pread_exact fuel o dsz off size st := pread_loop fuel o dsz off size [] st.

(** utils.c:676-700 r_pwrite_exact *)
Fixpoint pwrite_loop (fuel : nat) (o : oracle) (dsz off : N) (data : list byte) (pos : N) (st : io) : out unit * io :=
  if (pos <? lenN data)%N then
    match fuel with
    | O => (Running, st)
    | S f =>
        match sys_pwrite o dsz (off + pos) (skipn (N.to_nat pos) data) st with
        | (RIntr, st') => pwrite_loop f o dsz off data pos st'
        | (RErr, st') => (Failed, st')
        | (ROk n, st') => pwrite_loop f o dsz off data (pos + n) st'
        end
    end
  else (Done tt, st).
Definition pwrite_exact fuel o dsz off data st := pwrite_loop fuel o dsz off data 0 st.

(** utils.c:702-717 r_pwrite_lazy *)
Definition bytes_eqb (a b : list byte) : bool := if list_eq_dec N.eq_dec a b then true else false.
Definition pwrite_lazy fuel o dsz off data st : out unit * io :=
  match pread_exact fuel o dsz off (lenN data) st with
  | (Done old, st') => if bytes_eqb data old then (Done tt, st') else pwrite_exact fuel o dsz off data st'
  | (Failed, st') => (Failed, st')
  | (Running, st') => (Running, st')
  end.

(** utils.c:585-614 r_read_exact, 616-642 r_write_exact: the same loops, the kernel moves the
    file position; both return the new position *)
Fixpoint read_loop (fuel : nat) (o : oracle) (dsz size : N) (fdpos : N) (acc : list byte) (st : io)
  : out (list byte) * N * io :=
  if (lenN acc <? size)%N then
    match fuel with
    | O => (Running, fdpos, st)
    | S f =>
        match sys_pread o dsz fdpos (size - lenN acc) st with
        | (RIntr, st') => read_loop f o dsz size fdpos acc st'
        | (RErr, st') => (Failed, fdpos, st')
        | (ROk [], st') => (Failed, fdpos, st')
        | (ROk l, st') => read_loop f o dsz size (fdpos + lenN l) (acc ++ l) st'
        end
    end
  else (Done acc, fdpos, st).
Definition read_exact fuel o dsz fdpos size st := read_loop fuel o dsz size fdpos [] st.

Fixpoint write_loop (fuel : nat) (o : oracle) (dsz : N) (fdpos : N) (data : list byte) (pos : N) (st : io)
  : out unit * N * io :=
  if (pos <? lenN data)%N then
    match fuel with
    | O => (Running, fdpos, st)
    | S f =>
        match sys_pwrite o dsz fdpos (skipn (N.to_nat pos) data) st with
        | (RIntr, st') => write_loop f o dsz fdpos data pos st'
        | (RErr, st') => (Failed, fdpos, st')
        | (ROk n, st') => write_loop f o dsz (fdpos + n) data (pos + n) st'
        end
    end
  else (Done tt, fdpos, st).
Definition write_exact fuel o dsz fdpos data st := write_loop fuel o dsz fdpos data 0 st.

(** g_output_stream_write_all on a GUnixOutputStream (GLib, trusted): the same loop *)
Definition write_all fuel o dsz fdpos data st := write_exact fuel o dsz fdpos data st.

(** g_input_stream_read on the image file: interrupted calls are repeated by GLib and
    represented by the next oracle entry; [inp] is the rest of the file *)
Definition stream_read (o : oracle) (inp : list byte) (n : N) (st : io) : sysres (list byte * list byte) * io :=
  let st' := mkIo (S (io_k st)) (io_disk st) (io_trace st) in
  match o (io_k st) with
  | SIntr => (RIntr, st')
  | SFail => (RErr, st')
  | SCount c =>
      let m := N.to_nat (N.min (N.max 1 c) n) in
      (ROk (firstn m inp, skipn m inp), st')
  end.

(** update_utils.c:88-139 r_copy_stream_with_progress; returns the rest of the input and the
    new output position *)
Fixpoint copy_loop (fuel : nat) (o : oracle) (dsz size : N) (inp : list byte) (fdpos sum : N) (st : io)
  : out (list byte) * N * io :=
  match fuel with
  | O => (Running, fdpos, st)
  | S f =>
      match stream_read o inp 8192 st with
      | (RIntr, st') => copy_loop f o dsz size inp fdpos sum st'
      | (RErr, st') => (Failed, fdpos, st')
      | (ROk (chunk, rest), st') =>
          if (size <? sum + lenN chunk)%N then (Failed, fdpos, st')
          else
            match write_all fuel o dsz fdpos chunk st' with
            | (Done _, fdpos', st'') =>
                match chunk with
                | [] => (Done rest, fdpos', st'')                          (* while (out_size) *)
                | _ => copy_loop f o dsz size rest fdpos' (sum + lenN chunk) st''
                end
            | (Failed, fdpos', st'') => (Failed, fdpos', st'')
            | (Running, fdpos', st'') => (Running, fdpos', st'')
            end
      end
  end.
Definition copy_stream fuel o dsz size inp fdpos st : out (list byte) * N * io :=
  if (size =? 0)%N then (Done inp, fdpos, st) else copy_loop fuel o dsz size inp fdpos 0 st.
