(** Vocabulary for C41. *)
From Verif Require Import Base Nbd.

(** the requests of the client, in order; request number t is the t-th of them *)
Definition requests (es : list nev) : list nreq :=
  flat_map (fun e => match e with EClient q => [q] | EDone _ _ => [] end) es.
Definition request (es : list nev) (t : nat) : option nreq := nth_error (requests es) t.

(** the transfer results reported for request t *)
Definition results (es : list nev) (t : nat) : list cres :=
  flat_map (fun e => match e with EDone t' c => if Nat.eqb t' t then [c] else [] | EClient _ => [] end) es.

(** the bytes of a response *)
Definition body_of (c : cres) : string := String.concat "" (c_chunks c).

(** a transfer for request q which failed: curl found an error, or the response is longer than requested *)
Definition failed (q : nreq) (c : cres) : Prop :=
  c_ok c = false \/ (q_len q < N.of_nat (String.length (body_of c)))%N.

(** a partial content response of exactly the requested size *)
Definition complete (q : nreq) (c : cres) : Prop :=
  c_ok c = true /\ c_http c = 206%N /\ N.of_nat (String.length (body_of c)) = q_len q.

(** a response which curl considers as fine but which has too few bytes *)
Definition short (q : nreq) (c : cres) : Prop :=
  c_ok c = true /\ c_http c = 206%N /\ (N.of_nat (String.length (body_of c)) < q_len q)%N.

(** the HTTP requests sent for request t *)
Definition gets (l : list nout) (t : nat) : nat :=
  List.length (filter (fun o => match o with OGet t' _ _ => Nat.eqb t' t | _ => false end) l).

(** the replies sent for request t *)
Definition heads (l : list nout) (t : nat) : nat :=
  List.length (filter (fun o => match o with OHead t' _ _ => Nat.eqb t' t | _ => false end) l).

(** what is written to the socket *)
Definition on_socket (o : nout) : bool := match o with OGet _ _ _ => false | _ => true end.

(** a sequence of complete replies: an error reply is a header, a successful one a header followed by its data *)
Inductive framed : list nout -> Prop :=
| framed_nil : framed []
| framed_err : forall t h e l, e <> 0%N -> framed l -> framed (OHead t h e :: l)
| framed_ok : forall t h d l, framed l -> framed (OHead t h 0 :: OBody t d :: l).
