(** Model of the progress steps in src/context.c:587-830.

    gfloat values are modelled by rational numbers: rounding is not modelled. *)
From Coq Require Export QArith Qround.
From Verif Require Import Base.

(** include/context.h:88-99 RaucProgressStep; gint counters are assumed not to be negative *)
Record pstep := mkStep {
  s_name : string;
  s_weight : nat;
  s_total : nat;         (* substeps_total *)
  s_done : nat;          (* substeps_done *)
  s_pt : Q;              (* percent_total *)
  s_pd : Q;              (* percent_done *)
  s_last : Z             (* last_explicit_percent *)
}.
Definition set_pd (s : pstep) (q : Q) : pstep := mkStep (s_name s) (s_weight s) (s_total s) (s_done s) (s_pt s) q (s_last s).
Definition set_last (s : pstep) (l : Z) : pstep := mkStep (s_name s) (s_weight s) (s_total s) (s_done s) (s_pt s) (s_pd s) l.
Definition set_done (s : pstep) (n : nat) : pstep := mkStep (s_name s) (s_weight s) (s_total s) n (s_pt s) (s_pd s) (s_last s).

(** a call of the progress callback: percentage (gint), nesting depth, "done"/"failed" or not *)
Record report := mkReport { r_pct : Z; r_depth : nat; r_finished : bool }.

Definition sum_pd (l : list pstep) : Q := fold_right (fun s a => s_pd s + a) 0 l.

(** conversion of a non-negative gfloat to an integer *)
Definition trunc (q : Q) : Z := Qfloor q.
Definition Qltb (a b : Q) : bool := negb (Qle_bool b a).

(** context.c:587-635 r_context_send_progress; [stack]: most recent step first *)
Definition send_progress (stack : list pstep) (finished : bool) : res report :=
  match stack with
  | [] => Abort
  | step :: anc =>
      let percentage := match anc with [] => s_pd step | _ => sum_pd anc end in
      let percentage := if Qltb (s_pd step) 100 && Qltb 99 percentage then 99 else percentage in
      if (trunc percentage <=? 100)%Z then Ok (mkReport (trunc percentage) (List.length stack) finished)
      else Abort
  end.

Definition qn (n : nat) : Q := inject_Z (Z.of_nat n).

(** context.c:643-690 r_context_begin_step_weighted *)
Definition begin_step (stack : list pstep) (name : string) (substeps weight : nat) : res (list pstep * list report) :=
  do pt <- (match stack with
            | [] => Ok 100
            | parent :: _ =>
                if Nat.eqb (s_total parent) 0 then Abort
                else if Nat.eqb (s_total parent) (s_done parent) then Abort
                else let pt := qn weight * s_pt parent / qn (s_total parent) in
                     if (trunc pt <=? trunc (s_pt parent))%Z && (trunc pt <=? 100)%Z then Ok pt else Abort
            end) ;;
  let stack := mkStep name weight substeps 0 pt 0 0 :: stack in
  do r <- send_progress stack false ;; Ok (stack, [r]).

(** context.c:785-823 r_context_set_step_percentage *)
Definition set_percentage (stack : list pstep) (name : string) (custom : Z) : res (list pstep * list report) :=
  match stack with
  | step :: parent :: rest =>
      if negb (String.eqb (s_name step) name) then Abort else
      (* substeps_total < 0: never *)
      let diff := (custom - s_last step)%Z in
      if (diff <? 1)%Z then Ok (stack, []) else
      let step := set_last (set_pd step (s_pt step * (inject_Z diff / 100))) custom in
      let parent := set_pd parent (s_pd parent + s_pd step) in
      let stack := step :: parent :: rest in
      if (custom =? 100)%Z then Ok (stack, [])
      else do r <- send_progress stack false ;; Ok (stack, [r])
  | _ => Abort
  end.

(** context.c:825-829 r_context_inc_step_percentage *)
Definition inc_percentage (stack : list pstep) (name : string) : res (list pstep * list report) :=
  match stack with
  | [] => Abort
  | step :: _ => set_percentage stack name (s_last step + 1)
  end.

(** context.c:724-783 r_context_end_step *)
Definition end_step (stack : list pstep) (name : string) (success : bool) : res (list pstep * list report) :=
  match stack with
  | [] => Abort
  | step :: anc =>
      let step := set_pd step (s_pt step) in
      if Nat.ltb (s_total step) (s_done step) then Abort
      else if success && Nat.ltb (s_done step) (s_total step) then Abort
      else
        let step := if success then step else set_done step (s_total step) in
        if negb (String.eqb (s_name step) name) then Abort else
        do stack <- (match anc with
                     | [] => Ok [step]
                     | parent :: rest =>
                         let parent := set_done parent (s_done parent + s_weight step) in
                         do st <- (if negb (s_last step =? 0)%Z
                                   then do (st, _) <- set_percentage (step :: parent :: rest) (s_name step) 100 ;; Ok st
                                   else Ok (step :: set_pd parent (s_pd parent + s_pd step) :: rest)) ;;
                         match st with
                         | step :: parent :: _ => if (trunc (s_pd step) <=? trunc (s_pd parent))%Z then Ok st else Abort
                         | _ => Abort
                         end
                     end) ;;
        do r <- send_progress stack true ;;
        Ok (tl stack, [r])
  end.

Inductive pop :=
| OpBegin (name : string) (substeps weight : nat)
| OpSet (name : string) (percent : Z)
| OpInc (name : string)
| OpEnd (name : string) (success : bool).

Definition do_op (stack : list pstep) (o : pop) : res (list pstep * list report) :=
  match o with
  | OpBegin n s w => begin_step stack n s w
  | OpSet n p => set_percentage stack n p
  | OpInc n => inc_percentage stack n
  | OpEnd n ok => end_step stack n ok
  end.

Fixpoint do_ops (stack : list pstep) (l : list pop) : res (list pstep * list report) :=
  match l with
  | [] => Ok (stack, [])
  | o :: l => do (stack, r) <- do_op stack o ;; do (stack, r') <- do_ops stack l ;; Ok (stack, r ++ r')
  end.
