(** Model of splice_with_progress and splice_file_to_outstream (src/update_handler.c:236-316): an image is handed to the
    standard input of tar, nandwrite, .. through a pipe.

    The image file does not change while it is read (it is on the verified mount of the bundle).  splice(2) moves some of
    the bytes left, at least one if there are any; it fails, or says 0 at the end of the file. *)
From Verif Require Import Base.
Open Scope list_scope.

(** one call of splice: [k + 1] bytes wanted by the kernel (cut to what is left and to 1 MiB), or failure *)
Inductive call := Moves (k : nat) | Fails.

Inductive sres := SpliceOk | SpliceFailed | SpliceCrash | SpliceWaits.   (* SpliceCrash: division by zero; SpliceWaits: still running *)

(** :256: not more than 1 MiB *)
Definition block (k : nat) : nat := N.to_nat (N.min (N.of_nat (S k)) 1048576).

(** :254-270 the loop; [rest]: what was not read yet; [size]: st_size; [progress]: r_context()->progress is set.
    Result: what the pipe got, and the percentages reported. *)
Fixpoint splice_loop (progress : bool) (size : nat) (calls : list call) (rest : list N) (sum : nat) : sres * list N * list nat :=
  match calls with
  | [] => (SpliceWaits, [], [])
  | Fails :: _ => (SpliceFailed, [], [])                                       (* :257-262 *)
  | Moves k :: r =>
      let n := Nat.min (block k) (List.length rest) in
      let out := firstn n rest in
      let sum := sum + n in                                                    (* :264 *)
      if progress && Nat.eqb size 0 then (SpliceCrash, out, [])                (* :268 *)
      else
        let pct := if progress then [sum * 100 / size] else [] in              (* :267-268 *)
        if Nat.eqb n 0 then (SpliceOk, out, pct)                               (* :269 while (out_size) *)
        else let '(x, o, p) := splice_loop progress size r (skipn n rest) sum in (x, out ++ o, pct ++ p)
  end.

(** :236-272, :274-316.  [stat_ok], [close_ok]: fstat and the closing of both ends work. *)
Definition splice_image (progress stat_ok close_ok : bool) (calls : list call) (image : list N) : sres * list N * list nat :=
  if negb stat_ok then (SpliceFailed, [], [])
  else match splice_loop progress (List.length image) calls image 0 with
       | (SpliceOk, o, p) => (if close_ok then SpliceOk else SpliceFailed, o, p)
       | r => r
       end.
