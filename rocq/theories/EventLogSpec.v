(** Vocabulary for the event log property (C25). *)
From Verif Require Import Base EventLog.

Definition content (fs : logfs) (f : fname) : list string :=
  match fs f with Some c => c | None => [] end.

(** what a user reads: the rotated files [n] .. 1, oldest first, then the current file *)
Fixpoint rotated (n : nat) (fs : logfs) : list string :=
  match n with O => [] | S m => content fs (Rot n) ++ rotated m fs end.
Definition view (n : nat) (fs : logfs) : list string := rotated n fs ++ content fs Cur.

(** the highest file number for a configured number of files *)
Definition top (maxfiles : nat) : nat := Nat.max 1 (maxfiles - 1).

Definition prefix_of (p s : string) : Prop := exists r, s = (p ++ r)%string.

(** an entry was dropped only because it is in the oldest file and the files are full *)
Definition drop_ok (lg : logger) (fs : logfs) (len : N) (dropped : list string) : Prop :=
  dropped = [] \/
  (lg_maxsize lg <> 0%N /\ (lg_maxsize lg < lg_filesize lg + len)%N /\ fs (Rot (top (lg_maxfiles lg))) = Some dropped).

(** the state of a running logger: the current file exists, its size is known, ".0" is not used *)
Definition log_inv (lg : logger) (fs : logfs) : Prop :=
  1 <= lg_maxfiles lg /\ fs (Rot 0) = None /\
  (lg_broken lg = false -> lg_open lg = true /\ exists c, fs Cur = Some c /\ lg_filesize lg = fsize c).

Definition rotating (lg : logger) (len : N) : Prop := lg_maxsize lg <> 0%N /\ (lg_maxsize lg < lg_filesize lg + len)%N.

Definition same_config (lg lg' : logger) : Prop :=
  lg_events lg' = lg_events lg /\ lg_maxsize lg' = lg_maxsize lg /\ lg_maxfiles lg' = lg_maxfiles lg.

(** what one logged event does to the files *)
Definition write_spec (lg : logger) (fs : logfs) (out : string) (lg' : logger) (fs' : logfs) (st : lstat) : Prop :=
  let T := top (lg_maxfiles lg) in
  st <> Aborted /\ same_config lg lg' /\
  (* files with other numbers are not touched *)
  (forall k, T < k -> fs' (Rot k) = fs (Rot k)) /\
  (* the user still reads everything, in order, except what was in the oldest file *)
  (exists dropped added, view T fs ++ added = dropped ++ view T fs' /\ drop_ok lg fs (slen out) dropped /\
     (added = [] \/ exists p, added = [p] /\ prefix_of p out) /\
     (* and, if the logger is still usable, the whole new entry *)
     (st = Done -> lg_broken lg' = false -> added = [out])) /\
  (* the size limit holds except for a single larger entry *)
  (st = Done -> lg_broken lg' = false -> lg_maxsize lg <> 0%N ->
     exists c, fs' Cur = Some c /\ ((fsize c <= lg_maxsize lg)%N \/ c = [out])) /\
  (* a file is only closed when it is full *)
  (st = Done -> lg_broken lg' = false -> rotating lg (slen out) ->
     fs' Cur = Some [out] /\ exists c, fs' (Rot 1) = Some c /\ (lg_maxsize lg < fsize c + slen out)%N) /\
  (st = Done -> log_inv lg' fs').

(** an event of the "rauc-event" domain, of a type the logger is configured for *)
Definition wanted (lg : logger) (d t : string) : Prop :=
  d = "rauc-event" /\ (hd_error (lg_events lg) = Some "all" \/ In t (lg_events lg)).

(** what an event may add to the log: nothing, or a beginning of its entry; the whole entry
    if the logger runs, wants it, and is still usable afterwards *)
Definition contributes (p : lproc) (e : levent) (p' : lproc) (added : list string) : Prop :=
  match e with
  | LStart _ => added = []
  | LEvent d t out _ =>
      (added = [] \/ exists s, added = [s] /\ prefix_of s out) /\
      match p with
      | None => added = []
      | Some lg =>
          (lg_broken lg = true \/ ~ wanted lg d t -> added = []) /\
          (forall lg', p' = Some lg' -> lg_broken lg = false -> lg_broken lg' = false -> wanted lg d t -> added = [out])
      end
  end.
Fixpoint contributed (cfg : logger) (p : lproc) (fs : logfs) (h : list levent) (added : list string) : Prop :=
  match h with
  | [] => added = []
  | e :: h => exists a r, added = a ++ r /\ contributes p e (fst (lstep cfg p fs e)) a /\
                contributed cfg (fst (lstep cfg p fs e)) (snd (lstep cfg p fs e)) h r
  end.
