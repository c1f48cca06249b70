(** Model of src/bootloaders/barebox.c.

    The barebox state is a map from variable names to unsigned numbers (the
    variables used here are uint32 in barebox).  The external program
    barebox-state is modelled by [bb_print] ("-g A -g B": one decimal number per
    line, failure if a variable does not exist) and [bb_apply] ("-s K=V ...": all
    assignments of one call are stored atomically).  Simplified: an assignment is
    a (key, number) pair instead of the string "K=V". *)
From Verif Require Import Base Slot.

Definition bbstate := string -> option N.

Definition bnl : ascii := ascii_of_nat 10.

(** External tool: "barebox-state -g k1 -g k2" *)
Definition bb_print (st : bbstate) (k1 k2 : string) : option string :=
  match st k1, st k2 with
  | Some a, Some b => Some (print_num 10 a ++ String bnl (print_num 10 b ++ String bnl ""))%string
  | _, _ => None
  end.

(** External tool: "barebox-state -s k=v ..." *)
Definition bb_apply (st : bbstate) (kvs : list (string * N)) : bbstate :=
  fold_left (fun s kv => upd s (fst kv) (Some (snd kv))) kvs st.

(** barebox.c:48,204 *)
Definition prio_key (b : string) : string := ("bootstate." ++ b ++ ".priority")%string.
(** barebox.c:50,208 *)
Definition att_key (b : string) : string := ("bootstate." ++ b ++ ".remaining_attempts")%string.

(** barebox.c:116-131: did g_ascii_strtoull consume a digit ([outline != endptr])? *)
Definition conv10 (s : string) : bool :=
  match skip_space s with
  | String c r => if Ascii.eqb c "-" || Ascii.eqb c "+"
                  then match r with String d _ => match digit_val d with Some v => (v <? 10)%N | None => false end
                                  | _ => false end
                  else match digit_val c with Some v => (v <? 10)%N | None => false end
  | _ => false
  end.

(** barebox.c:116-131 for one line.  Simplified: a result of exactly G_MAXUINT64
    is always an error (in C only if errno is set). *)
Definition bb_parse_line (o : option string) : res N :=
  match o with
  | None => Err                                                     (* :99-114 *)
  | Some line =>
      let v := g_ascii_strtoull 10 line in
      if (v =? 0)%N && negb (conv10 line) then Err                  (* :117-123 *)
      else if (v =? ullong_max)%N then Err                          (* :124-131 *)
      else Ok v
  end.

Record bb_slot_state := mkBB { bb_prio : N; bb_att : N }.           (* :14-17, guint32 *)

(** barebox.c:31-138 barebox_state_get *)
Definition barebox_state_get (st : bbstate) (b : string) : res bb_slot_state :=
  match bb_print st (prio_key b) (att_key b) with
  | None => Err                                                     (* :84-92 *)
  | Some out =>
      let outlines := g_strsplit bnl out in                         (* :95 *)
      do p <- bb_parse_line (nth_error outlines 0) ;;
      do a <- bb_parse_line (nth_error outlines 1) ;;
      Ok (mkBB (p mod 2 ^ 32) (a mod 2 ^ 32))                       (* :134-135 *)
  end.

Definition bb_attempts (cfg : Z) : N := if (cfg <=? 0)%Z then 3 else Z.to_N cfg.

(** barebox.c:188-217 r_barebox_set_state *)
Definition barebox_set_state (cfg_default_attempts : Z) (b : string) (good : bool) : list (string * N) :=
  if good then [(att_key b, bb_attempts cfg_default_attempts)]
  else [(prio_key b, 0%N); (att_key b, 0%N)].

(** barebox.c:229-248: the loop, with current best [top] *)
Fixpoint bb_best (st : bbstate) (slots : list slot) (primary : option slot) (top : N) : res (option slot) :=
  match slots with
  | [] => Ok primary
  | s :: ss =>
      match sl_bootname s with
      | None => bb_best st ss primary top                           (* :232 *)
      | Some b =>
          do x <- barebox_state_get st b ;;                         (* :235-238 *)
          if (bb_att x =? 0)%N then bb_best st ss primary top       (* :240 *)
          else if (top <? bb_prio x)%N then bb_best st ss (Some s) (bb_prio x)   (* :244-247 *)
          else bb_best st ss primary top
      end
  end.

(** barebox.c:220-259 r_barebox_get_primary *)
Definition barebox_get_primary (st : bbstate) (slots : list slot) : res slot :=
  do o <- bb_best st slots None 0 ;;
  match o with Some s => Ok s | None => Err end.

(** barebox.c:263-279 r_barebox_get_state *)
Definition barebox_get_state (st : bbstate) (b : string) : res bool :=
  do x <- barebox_state_get st b ;;
  Ok (if (0 <? bb_prio x)%N then (0 <? bb_att x)%N else false).

(** barebox.c:294-317: priorities for all slots *)
Fixpoint bb_prios (st : bbstate) (slots : list slot) (s : slot) : res (list (string * N)) :=
  match slots with
  | [] => Ok []
  | t :: ts =>
      match sl_bootname t with
      | None => bb_prios st ts s
      | Some b =>
          do x <- barebox_state_get st b ;;
          do rest <- bb_prios st ts s ;;
          Ok ((prio_key b, if same_slot t s then 20%N
                           else if (bb_prio x =? 0)%N then 0%N else 10%N) :: rest)
      end
  end.

(** barebox.c:282-332 r_barebox_set_primary: assignments of the single call *)
Definition barebox_set_primary (st : bbstate) (slots : list slot) (cfg_attempts_primary : Z)
  (s : slot) (b : string) : res (list (string * N)) :=
  do ps <- bb_prios st slots s ;;
  Ok (ps ++ [(att_key b, bb_attempts cfg_attempts_primary)]).
