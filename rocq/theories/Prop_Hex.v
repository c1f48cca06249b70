(** Property theorems for hexadecimal encoding (C16). *)
From Verif Require Import Base BaseLemmas Hex HexProofs.

Theorem C16_round_trip : forall raw, raw <> [] ->
  exists s, hex_encode raw = Ok s /\ String.length s = 2 * List.length raw /\
    all_chars lower_hex_digit s = true /\ hex_decode s (List.length raw) = Some raw.
Proof. exact c16_round_ok. Qed.
Print Assumptions C16_round_trip.
Theorem C16_accepts : forall s n,
  (exists raw, hex_decode s n = Some raw) <-> String.length s = 2 * n /\ all_chars hex_digit s = true.
Proof. exact c16_accept_ok. Qed.
Print Assumptions C16_accepts.
Theorem C16_length : forall s n raw, hex_decode s n = Some raw -> List.length raw = n.
Proof. exact c16_length_ok. Qed.
Print Assumptions C16_length.
Theorem C16_value : forall h l r bs n, hex_decode (String h (String l r)) (S n) = Some bs ->
  exists u v bs', digit_val h = Some u /\ digit_val l = Some v /\ hex_decode r n = Some bs' /\
    bs = ascii_of_N (16 * u + v) :: bs'.
Proof. exact c16_value_ok. Qed.
Print Assumptions C16_value.

Example ex_hex : hex_encode ["000"; "255"; "A"]%char = Ok "00ff41" /\ hex_decode "00fF41" 3 = Some ["000"; "255"; "A"]%char
  /\ hex_decode "00f" 1 = None /\ hex_decode "0g" 1 = None.
Proof. repeat split. Qed.
