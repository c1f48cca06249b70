(** Model of src/event_log.c: event log files and their rotation.

    The text of an entry (formatting, time stamps, JSON) is not modelled: an entry is the
    string which is passed to the output stream.  One logger owns its files; nothing else
    changes them while it runs. *)
From Verif Require Import Base.

(** the log file "<filename>" and the rotated files "<filename>.<n>" *)
Inductive fname := Cur | Rot (n : nat).
Definition fname_eqb (a b : fname) : bool :=
  match a, b with Cur, Cur => true | Rot n, Rot m => Nat.eqb n m | _, _ => false end.

(** content of a file: the strings written to it, in order; None: no such file *)
Definition logfs := fname -> option (list string).
Definition lset (fs : logfs) (f : fname) (c : option (list string)) : logfs :=
  fun g => if fname_eqb g f then c else fs g.

Definition slen (s : string) : N := N.of_nat (String.length s).
Definition fsize (l : list string) : N := fold_right (fun s a => (slen s + a)%N) 0%N l.

(** outcome of the next system call: it works, fails (other than ENOENT), or the machine
    stops.  [k]: for a failing or interrupted write, the number of bytes that did reach the
    file. *)
Inductive outcome := OGood | OFail (k : nat) | OCrash (k : nat).
Definition next (o : list outcome) : outcome * list outcome :=
  match o with [] => (OGood, []) | x :: r => (x, r) end.
Inductive lstat := Done | Failed | Crashed | Aborted.

(** include/event_log.h:59-73 *)
Record logger := mkLogger {
  lg_events : list string;
  lg_maxsize : N;        (* 0: not limited *)
  lg_maxfiles : nat;
  lg_open : bool;        (* logstream != NULL *)
  lg_filesize : N;
  lg_broken : bool
}.
Definition with_file (lg : logger) (op : bool) (sz : N) : logger :=
  mkLogger (lg_events lg) (lg_maxsize lg) (lg_maxfiles lg) op sz (lg_broken lg).
Definition set_broken (lg : logger) : logger :=
  mkLogger (lg_events lg) (lg_maxsize lg) (lg_maxfiles lg) (lg_open lg) (lg_filesize lg) true.

(** rename(2): atomically replaces the destination; None: ENOENT *)
Definition lrename (fs : logfs) (a b : fname) : option logfs :=
  match fs a with
  | None => None
  | Some c => Some (lset (lset fs b (Some c)) a None)
  end.

(** event_log.c:271-287: for (file_num = n; file_num > 0; file_num--) *)
Fixpoint shift_files (n : nat) (fs : logfs) (o : list outcome) : logfs * list outcome * lstat :=
  match n with
  | O => (fs, o, Done)
  | S m =>
      let (x, o) := next o in
      match x with
      | OCrash _ => (fs, o, Crashed)
      | OFail _ => (fs, o, Failed)
      | OGood => match lrename fs (Rot m) (Rot (S m)) with
                 | Some fs' => shift_files m fs' o
                 | None => shift_files m fs o                       (* ENOENT: continue *)
                 end
      end
  end.

(** event_log.c:240-307 rotate_logfiles *)
Definition rotate (lg : logger) (fs : logfs) (next_len : N) (o : list outcome) : logger * logfs * list outcome * lstat :=
  if (lg_maxsize lg =? 0)%N then (lg, fs, o, Done)                                  (* :252-253 *)
  else if (lg_filesize lg + next_len <=? lg_maxsize lg)%N then (lg, fs, o, Done)     (* :256-257 *)
  else
    let lg := with_file lg false (lg_filesize lg) in                                 (* :260 *)
    match lg_maxfiles lg with
    | O => (lg, fs, o, Aborted)                                                      (* :265 g_assert *)
    | S m =>
        match shift_files m fs o with
        | (fs, o, Done) =>
            let (x, o) := next o in
            match x with
            | OCrash _ => (lg, fs, o, Crashed)
            | OFail _ => (lg, fs, o, Failed)
            | OGood =>
                match lrename fs Cur (Rot 1) with                                    (* :290-295 *)
                | None => (lg, fs, o, Failed)
                | Some fs =>
                    let (x, o) := next o in                                          (* :298-304 *)
                    match x with
                    | OCrash _ => (lg, fs, o, Crashed)
                    | OFail _ => (lg, fs, o, Failed)
                    | OGood => (with_file lg true 0, lset fs Cur (Some []), o, Done)
                    end
                end
            end
        | (fs, o, st) => (lg, fs, o, st)
        end
    end.

Definition append (fs : logfs) (s : string) : logfs :=
  match fs Cur with Some c => lset fs Cur (Some (c ++ [s])) | None => fs end.

(** event_log.c:309-361 event_log_writer_file; [output] is the formatted entry with its
    newline *)
Definition write_entry (lg : logger) (fs : logfs) (output : string) (o : list outcome) : logger * logfs * lstat :=
  if lg_broken lg then (lg, fs, Done)
  else if negb (lg_open lg) then (lg, fs, Aborted)                                   (* g_error *)
  else match rotate lg fs (slen output) o with
       | (lg, fs, o, Failed) => (set_broken lg, fs, Done)
       | (lg, fs, o, Done) =>
           match fst (next o) with
           | OGood => (with_file lg (lg_open lg) (lg_filesize lg + slen output), append fs output, Done)
           | OFail k => (set_broken lg, append fs (substring 0 k output), Done)
           | OCrash k => (lg, append fs (substring 0 k output), Crashed)
           end
       | (lg, fs, o, st) => (lg, fs, st)
       end.

(** event_log.c:390-404: does this logger get an event of this type? *)
Definition wants (lg : logger) (type : string) : bool :=
  match lg_events lg with
  | [] => false
  | e :: _ => String.eqb e "all" || existsb (String.eqb type) (lg_events lg)
  end.

(** event_log.c:363-408 r_event_log_writer, for one of the loggers *)
Definition log_event (lg : logger) (fs : logfs) (domain type output : string) (o : list outcome) : logger * logfs * lstat :=
  if negb (String.eqb domain "rauc-event") then (lg, fs, Done)
  else if lg_broken lg then (lg, fs, Done)
  else if negb (wants lg type) then (lg, fs, Done)
  else write_entry lg fs output o.

(** event_log.c:410-443 r_event_log_setup_logger on a fresh logger, which opens or creates
    the file; g_seekable_tell on the appending stream is taken to return the file size *)
Definition setup (lg : logger) (fs : logfs) (o : list outcome) : logger * logfs * lstat :=
  match fst (next o) with
  | OCrash _ => (lg, fs, Crashed)
  | OFail _ => (set_broken lg, fs, Done)
  | OGood =>
      let c := match fs Cur with Some c => c | None => [] end in
      (with_file lg true (fsize c), lset fs Cur (Some c), Done)
  end.

(** config_file.c:213-300 parse_event_logs: the fresh logger *)
Definition fresh_logger (events : list string) (maxsize : N) (maxfiles : nat) : logger :=
  mkLogger events maxsize maxfiles false 0 false.

(** a history: the service starts, logs events, stops or crashes, starts again ... *)
Inductive levent :=
| LStart (o : list outcome)
| LEvent (domain type output : string) (o : list outcome).

Definition lproc := option logger.       (* None: the service does not run *)

Definition lstep (cfg : logger) (p : lproc) (fs : logfs) (e : levent) : lproc * logfs :=
  match e with
  | LStart o =>
      let '(lg, fs, st) := setup cfg fs o in (match st with Done => Some lg | _ => None end, fs)
  | LEvent d t out o =>
      match p with
      | None => (None, fs)
      | Some lg =>
          let '(lg, fs, st) := log_event lg fs d t out o in (match st with Done => Some lg | _ => None end, fs)
      end
  end.

Fixpoint lrun (cfg : logger) (p : lproc) (fs : logfs) (h : list levent) : lproc * logfs :=
  match h with
  | [] => (p, fs)
  | e :: h => let (p, fs) := lstep cfg p fs e in lrun cfg p fs h
  end.
