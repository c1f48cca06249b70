(** Vocabulary for payload encryption (C52). *)
From Verif Require Import Base Hex Crypt.

(** a payload as a list of 4096-byte sectors *)
Definition sectors (secs : list bytes) : Prop := Forall (fun s => List.length s = N.to_nat 4096) secs.

(** little-endian number in [n] bytes *)
Fixpoint le_num (n : nat) (v : N) : bytes :=
  match n with
  | O => []
  | S m => ascii_of_N (v mod 256) :: le_num m (v / 256)
  end.

(** dm-crypt's plain64 IV of the i-th 4096-byte sector: the number of its first
    512-byte sector, in 16 bytes *)
Definition dm_iv (i : N) : bytes := le_num 16 (8 * i).

(** sector [i], [i+1], ... each passed through [f] with its own IV *)
Fixpoint each_sector (f : bytes -> bytes -> bytes) (i : N) (secs : list bytes) : bytes :=
  match secs with
  | [] => []
  | s :: r => f (dm_iv i) s ++ each_sector f (i + 1) r
  end.

(** What is known of the cipher: it keeps the length and decryption undoes
    encryption under the same key and IV. *)
Definition good_cipher (C : cipher_pair) : Prop :=
  (forall k iv s, List.length s = N.to_nat 4096 -> List.length (c_enc C k iv s) = N.to_nat 4096) /\
  (forall k iv s, List.length s = N.to_nat 4096 -> c_dec C k iv (c_enc C k iv s) = s).

Definition no_io_errors : io := mkIo None None.
