(** Model of the streaming NBD server (src/nbd.c): the block device requests of the kernel, arriving on a socket,
    are translated into HTTP range requests which run concurrently (curl multi interface); the results arrive in
    any order.

    Simplifications: the socket never fails (r_read_exact / r_write_exact succeed); curl is an oracle which reports,
    for a started transfer, the chunks of the body it passed to the write callback, the HTTP response code and
    whether it found an error itself; big endian conversions are left out; requests of type CONFIGURE are modelled
    separately (NbdConfig.v); statistics and messages are left out. *)
From Verif Require Import Base.

(** linux/nbd.h struct nbd_request, after conversion to host order (nbd.c:957-960) *)
Record nreq := mkNreq {
  q_type : N;
  q_handle : string;
  q_from : N;      (* 64 bit *)
  q_len : N        (* 32 bit *)
}.

Definition nbd_cmd_read : N := 0.
Definition nbd_cmd_disc : N := 2.

(** nbd.c:331-353 struct RaucNBDTransfer; [x_tick] is a ghost number which identifies the request *)
Record xfer := mkXfer {
  x_tick : nat;
  x_req : nreq;
  x_errors : nat
}.

(** what curl reports for one transfer: its own result apart from refused chunks, the HTTP response code
    and the chunks it offered to the write callback. [c_range] is the range in the Content-Range header of the
    response, if there is one: for reads no header callback is installed (start_read, nbd.c:554-561) *)
Record cres := mkCres {
  c_ok : bool;
  c_http : N;
  c_range : option (N * N);
  c_chunks : list string
}.

Inductive nev :=
| EClient (r : nreq)             (* a request was read from the socket *)
| EDone (t : nat) (c : cres).    (* curl_multi_info_read reports CURLMSG_DONE for the transfer of request t *)

Inductive nout :=
| OGet (t : nat) (first last : N)                (* HTTP request with "Range: bytes=first-last" *)
| OHead (t : nat) (handle : string) (err : N)    (* struct nbd_reply written to the socket *)
| OBody (t : nat) (data : string).               (* data written to the socket *)

Inductive nstat := Running | Stopped | Aborted.

Record nsrv := mkNsrv {
  n_next : nat;              (* ghost: number of the next request *)
  n_active : list xfer;      (* the transfers added to ctx->multi *)
  n_stat : nstat;
  n_out : list nout          (* everything sent so far, oldest first *)
}.

Definition nsrv_init : nsrv := mkNsrv 0 [] Running [].

(** nbd.c:363-378 write_cb for a sequence of chunks: returns the buffer and whether all chunks were accepted
    (a return value of 0 for a non-empty chunk makes curl abort the transfer with CURLE_WRITE_ERROR) *)
Fixpoint write_chunks (size : N) (buf : string) (cs : list string) : string * bool :=
  match cs with
  | [] => (buf, true)
  | c :: cs' =>
      if (size - N.of_nat (String.length buf) <? N.of_nat (String.length c))%N then (buf, false)
      else write_chunks size (buf ++ c)%string cs'
  end.

(** nbd.c:557-559: the range of a read *)
Definition get_range (t : nat) (q : nreq) : nout :=
  OGet t (q_from q) ((q_from q + q_len q + 2 ^ 64 - 1) mod 2 ^ 64)%N.

(** nbd.c:662-686 start_request for a request which was just received (start_read: nbd.c:544-567) *)
Definition start_new (s : nsrv) (q : nreq) : nsrv :=
  if (q_type q =? nbd_cmd_read)%N then
    mkNsrv (S (n_next s)) (n_active s ++ [mkXfer (n_next s) q 0]) Running (n_out s ++ [get_range (n_next s) q])
  else if (q_type q =? nbd_cmd_disc)%N then
    mkNsrv (S (n_next s)) (n_active s) Stopped (n_out s)
  else mkNsrv (S (n_next s)) (n_active s) Aborted (n_out s).

Fixpoint find_xfer (t : nat) (l : list xfer) : option xfer :=
  match l with
  | [] => None
  | x :: l' => if Nat.eqb (x_tick x) t then Some x else find_xfer t l'
  end.

Definition drop_xfer (t : nat) (l : list xfer) : list xfer := filter (fun x => negb (Nat.eqb (x_tick x) t)) l.

Definition nbd_eio : N := 5.

(** nbd.c:707-747 finish_read for a transfer which is done, with the error code determined so far and the buffer *)
Definition finish_read (s : nsrv) (x : xfer) (http : N) (err : N) (buf : string) : nsrv :=
  let err' := if (err =? 0)%N && negb (http =? 206)%N then nbd_eio else err in
  let head := OHead (x_tick x) (q_handle (x_req x)) err' in
  let act := drop_xfer (x_tick x) (n_active s) in
  if (err' =? 0)%N then
    if (N.of_nat (String.length buf) =? q_len (x_req x))%N then
      mkNsrv (n_next s) act Running (n_out s ++ [head; OBody (x_tick x) buf])
    else mkNsrv (n_next s) act Aborted (n_out s ++ [head])                    (* g_error *)
  else mkNsrv (n_next s) act Running (n_out s ++ [head]).

(** nbd.c:975-1018: the result of a transfer *)
Definition on_done (s : nsrv) (x : xfer) (c : cres) : nsrv :=
  let '(buf, accepted) := write_chunks (q_len (x_req x)) "" (c_chunks c) in
  if c_ok c && accepted then finish_read s x (c_http c) 0 buf
  else if (c_http c =? 404)%N then finish_read s x (c_http c) nbd_eio buf
  else if Nat.leb 5 (x_errors x) then finish_read s x (c_http c) nbd_eio buf
  else (* retry *)
    mkNsrv (n_next s) (drop_xfer (x_tick x) (n_active s) ++ [mkXfer (x_tick x) (x_req x) (S (x_errors x))])
      Running (n_out s ++ [get_range (x_tick x) (x_req x)]).

(** nbd.c:926-1018: one event in the loop of r_nbd_run_server; curl reports only transfers which were started,
    and each of them once *)
Definition nstep (s : nsrv) (e : nev) : nsrv :=
  match n_stat s with
  | Running =>
      match e with
      | EClient q => start_new s q
      | EDone t c => match find_xfer t (n_active s) with Some x => on_done s x c | None => s end
      end
  | _ => s
  end.

Definition nrun (es : list nev) : nsrv := fold_left nstep es nsrv_init.
