(** Model of src/utils.c:547-583 r_hex_decode, r_hex_encode.  Bytes are [ascii]. *)
From Verif Require Import Base.

Definition bytes := list ascii.

(** utils.c:556-564: the loop.  [digit_val] is g_ascii_xdigit_value (None = -1). *)
Fixpoint hex_loop (s : string) : option bytes :=
  match s with
  | EmptyString => Some []
  | String _ EmptyString => None          (* not reached: the length is even *)
  | String h (String l r) =>
      match digit_val h, digit_val l with
      | Some u, Some v =>
          match hex_loop r with
          | Some bs => Some (ascii_of_N (N.lor (N.shiftl u 4) v) :: bs)
          | None => None
          end
      | _, _ => None
      end
  end.

(** utils.c:547-567 r_hex_decode; None = NULL *)
Definition hex_decode (hex : string) (len : nat) : option bytes :=
  if Nat.eqb (String.length hex) (len * 2) then hex_loop hex else None.

(** utils.c:569-583 r_hex_encode (g_assert: not for empty input) *)
Fixpoint hex_chars (raw : bytes) : string :=
  match raw with
  | [] => EmptyString
  | b :: r =>
      String (digit_char (N.shiftr (N_of_ascii b) 4))
             (String (digit_char (N.land (N_of_ascii b) 15)) (hex_chars r))
  end.
Definition hex_encode (raw : bytes) : res string :=
  match raw with [] => Abort | _ => Ok (hex_chars raw) end.
