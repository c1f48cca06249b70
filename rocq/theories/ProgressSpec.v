(** Properly nested use of progress steps (C28), independent of percentages. *)
From Verif Require Import Base Progress.

(** an open step: name, weight, number of substeps, finished substeps (by weight), explicit
    percentage *)
Record open_step := mkOpen { o_name : string; o_weight : nat; o_total : nat; o_done : nat; o_last : Z }.

(** - a substep begins only in a step that still has room for its weight;
    - explicit percentages (0..100) are only used on steps without substeps which are not the outermost;
    - a step ends under its own name, and successfully only if all substeps are done. *)
Definition nest (l : list open_step) (o : pop) : option (list open_step) :=
  match o, l with
  | OpBegin n s w, [] => Some [mkOpen n w s 0 0]
  | OpBegin n s w, p :: r =>
      if Nat.leb 1 w && Nat.leb (o_done p + w) (o_total p) then Some (mkOpen n w s 0 0 :: p :: r) else None
  | OpSet n c, t :: p :: r =>
      if String.eqb (o_name t) n && Nat.eqb (o_total t) 0 && (0 <=? c)%Z && (c <=? 100)%Z
      then Some (mkOpen (o_name t) (o_weight t) 0 0 (Z.max (o_last t) c) :: p :: r) else None
  | OpInc n, t :: p :: r =>
      if String.eqb (o_name t) n && Nat.eqb (o_total t) 0 && (o_last t <? 100)%Z
      then Some (mkOpen (o_name t) (o_weight t) 0 0 (o_last t + 1) :: p :: r) else None
  | OpEnd n ok, t :: r =>
      if String.eqb (o_name t) n && (negb ok || Nat.eqb (o_done t) (o_total t))
      then Some (match r with
                 | [] => []
                 | p :: r => mkOpen (o_name p) (o_weight p) (o_total p) (o_done p + o_weight t) (o_last p) :: r
                 end)
      else None
  | _, _ => None
  end.
Fixpoint nested (l : list open_step) (ops : list pop) : option (list open_step) :=
  match ops with
  | [] => Some l
  | o :: ops => match nest l o with Some l => nested l ops | None => None end
  end.

(** consecutive reports never go down, except that a new outermost step starts at 0 *)
Definition root_begin (r : report) : Prop := r_depth r = 1%nat /\ r_finished r = false.
Fixpoint monotone (prev : Z) (l : list report) : Prop :=
  match l with
  | [] => True
  | r :: l => (prev <= r_pct r \/ root_begin r)%Z /\ monotone (r_pct r) l
  end.
