(** Model of src/network.c: download of a bundle to a file. *)
From Verif Require Import Base Hex.

(** A stdio output stream (FILE): what the file holds, what is buffered, how much
    fits on the file system, and the buffer size.  fwrite buffers while there is
    room, else it writes everything through; fflush writes everything.  A write that
    does not fit puts what fits into the file and reports an error; the buffer is
    then given up (glibc keeps it, but every later write fails as well: the model
    lets no more data in because [room] is used up). *)
Record stream := mkStream {
  st_file : bytes;
  st_buf : bytes;
  st_room : N;          (* capacity for this file *)
  st_bufsize : N
}.

Definition flush (s : stream) (data : bytes) : stream * bool :=
  let all := st_file s ++ data in
  if (N.of_nat (List.length all) <=? st_room s)%N
  then (mkStream all [] (st_room s) (st_bufsize s), true)
  else (mkStream (firstn (N.to_nat (st_room s)) all) [] (st_room s) (st_bufsize s), false).

Definition fwrite (s : stream) (data : bytes) : stream * bool :=
  let pend := st_buf s ++ data in
  if (N.of_nat (List.length pend) <=? st_bufsize s)%N
  then (mkStream (st_file s) pend (st_room s) (st_bufsize s), true)
  else flush s pend.

Definition fflush (s : stream) : stream * bool := flush s (st_buf s).

(** What libcurl does during curl_easy_perform: hands over data, reports progress.
    [CProgress total now]. *)
Inductive cevent :=
| CData (d : bytes)
| CProgress (dltotal dlnow : Z).

(** network.c:39-57 write_cb: false when fewer bytes were taken than offered.  pos
    and limit are curl_off_t, compared as guint64. *)
Definition write_cb (limit : Z) (pos : Z) (s : stream) (d : bytes) : stream * Z * bool :=
  let n := Z.of_nat (List.length d) in
  if negb (limit =? 0)%Z && (limit mod 2 ^ 64 <? (pos + n) mod 2 ^ 64)%Z then (s, pos, false)
  else
    let (s', ok) := fwrite s d in
    if ok then (s', (pos + n)%Z, true) else (s', pos, false).

(** network.c:59-74 xfer_cb: false = abort *)
Definition xfer_cb (limit dltotal dlnow : Z) : bool :=
  negb (negb (limit =? 0)%Z && ((limit <? dlnow)%Z || (limit <? dltotal)%Z)).

(** curl_easy_perform: the callbacks in the order of the events; a refused callback
    ends the transfer with an error (CURLE_WRITE_ERROR, CURLE_ABORTED_BY_CALLBACK);
    else curl's own verdict [code_ok] (CURLE_OK). *)
Fixpoint perform (limit : Z) (evs : list cevent) (code_ok : bool) (pos : Z) (s : stream) : stream * bool :=
  match evs with
  | [] => (s, code_ok)
  | CData d :: r =>
      let '(s', pos', ok) := write_cb limit pos s d in
      if ok then perform limit r code_ok pos' s' else (s', false)
  | CProgress t n :: r =>
      if xfer_cb limit t n then perform limit r code_ok pos s else (s, false)
  end.

(** network.c:76-139 transfer: the result of fflush is ignored (:132-133). *)
Definition transfer (limit : Z) (evs : list cevent) (code_ok : bool) (s : stream) : stream * bool :=
  let (s1, ok) := perform limit evs code_ok 0 s in
  if negb ok then (s1, false)
  else (fst (fflush s1), true).

(** network.c:141-177 download_file.  [old]: the target if it exists already; fopen
    (.., "wbx") then fails, as it does if it cannot be created.  fclose flushes once
    more; its result is only logged (:169-172).  Returns the target file and the
    result. *)
Definition download_file (limit : Z) (evs : list cevent) (code_ok can_create : bool)
  (room bufsize : N) (old : option bytes) : option bytes * bool :=
  match old with
  | Some _ => (old, false)
  | None =>
      if negb can_create then (None, false)
      else
        let (s1, ok) := transfer limit evs code_ok (mkStream [] [] room bufsize) in
        (Some (st_file (fst (fflush s1))), ok)
  end.
