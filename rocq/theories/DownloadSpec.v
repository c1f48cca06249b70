(** Vocabulary for downloads (C53). *)
From Verif Require Import Base Hex Download.

(** all data libcurl handed over *)
Fixpoint delivered (evs : list cevent) : bytes :=
  match evs with
  | [] => []
  | CData d :: r => d ++ delivered r
  | CProgress _ _ :: r => delivered r
  end.

(** libcurl: success means that the whole body was handed over *)
Definition honest_curl (body : bytes) (evs : list cevent) (code_ok : bool) : Prop :=
  code_ok = true -> delivered evs = body.
