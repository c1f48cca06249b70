(** Property theorems for payload encryption (C52).  Vocabulary: CryptSpec.v. *)
From Verif Require Import Base BaseLemmas Hex HexProofs Crypt CryptSpec CryptProofs.

(** C52: the encrypted payload is what dm-crypt (aes-cbc-plain64, 4096-byte sectors)
    expects: every sector on its own, with its number as IV *)
Theorem C52_layout : forall C key fs inp out (secs : list bytes),
  fs inp = Some (List.concat secs) -> sectors secs -> (N.of_nat (List.length secs) <= 2 ^ 52)%N ->
  exists fs', crypt_file (c_enc C key) 0 no_io_errors true fs inp out = (fs', true) /\
    fs' out = Some (each_sector (c_enc C key) 0 secs) /\
    forall q, q <> out -> fs' q = fs q.
Proof. exact layout_ok. Qed.
Print Assumptions C52_layout.
Example C52_layout_ex :
  dm_iv 0 = repeat Ascii.zero 16 /\
  dm_iv 33 = ["008"; "001"]%char ++ repeat Ascii.zero 14 /\
  sectors [sec "a"; sec "b"]%char.
Proof. split; [reflexivity|]. split; [reflexivity|exact secs2]. Qed.

(** C52: payloads that are not a multiple of the sector size are refused *)
Theorem C52_odd_size : forall C key fs inp out (data : bytes) env can,
  fs inp = Some data -> (N.of_nat (List.length data) <= 2 ^ 64)%N ->
  (N.of_nat (List.length data) mod 4096 <> 0)%N -> io_readable env = None ->
  snd (crypt_file (c_enc C key) 0 env can fs inp out) = false.
Proof. exact odd_size_ok. Qed.
Print Assumptions C52_odd_size.

(** C52: encryption replaces the bundle file as a whole or leaves it alone; no
    temporary file stays *)
Theorem C52_encrypt_bundle : forall C key env can ren tmp path fs (secs : list bytes) fs' r,
  fs path = Some (List.concat secs) -> sectors secs -> (N.of_nat (List.length secs) <= 2 ^ 52)%N ->
  tmp <> path -> key <> [] -> io_readable env = None ->
  encrypt_bundle_payload C key env can ren tmp path fs = (fs', r) ->
  fs' tmp = None /\
  (forall q, q <> tmp -> q <> path -> fs' q = fs q) /\
  match r with
  | Ok hex => hex_decode hex (List.length key) = Some key /\
              (io_room env = None -> fs' path = Some (each_sector (c_enc C key) 0 secs))
  | Err => fs' path = fs path
  | Abort => False
  end.
Proof. exact encrypt_bundle_ok. Qed.
Print Assumptions C52_encrypt_bundle.

(** C52: what was encrypted at creation is what extraction decrypts, whatever has
    been appended to the payload (hash tree and signature) *)
Theorem C52_round_trip : forall C key env tmp path fs (secs : list bytes) fs1 hex fs2 tmpdir (tail : bytes) fs3 r,
  good_cipher C -> List.length key = 32%nat ->
  fs path = Some (List.concat secs) -> sectors secs -> secs <> [] -> (N.of_nat (List.length secs) <= 2 ^ 52)%N ->
  tmp <> path -> env = no_io_errors ->
  encrypt_bundle_payload C key env true true tmp path fs = (fs1, Ok hex) ->
  (* the hash tree, the signature and its size are appended *)
  fs2 path = option_map (fun b => b ++ tail) (fs1 path) ->
  (4096 <= N.of_nat (List.length tail))%N ->
  forall verity_size,
  decrypt_bundle_payload C hex no_io_errors true tmpdir path
    (N.of_nat (List.length (List.concat secs)) + verity_size) verity_size fs2 = (fs3, r) ->
  r = Ok (List.concat secs).
Proof. exact round_trip_ok. Qed.
Print Assumptions C52_round_trip.
Example C52_round_trip_ex : good_cipher idc /\ List.length key32 = 32%nat /\ List.length (sec "v"%char) = N.to_nat 4096.
Proof. split; [exact idc_good|]. split; [reflexivity|apply sec_len]. Qed.

(** C52 needs all writes and reads to work: errors are not noticed *)
Theorem C52_room_refuted :
  exists C key env fs path tmp secs fs' hex,
    good_cipher C /\ List.length key = 32%nat /\ sectors secs /\ tmp <> path /\
    io_readable env = None /\ io_room env = Some 4096%N /\
    fs path = Some (List.concat secs) /\ List.length secs = 2%nat /\
    encrypt_bundle_payload C key env true true tmp path fs = (fs', Ok hex) /\
    exists b, fs' path = Some b /\ List.length b = N.to_nat 4096.
Proof. exact room_refuted. Qed.
Print Assumptions C52_room_refuted.
Theorem C52_read_refuted :
  exists C key env fs path tmp secs fs' hex,
    good_cipher C /\ List.length key = 32%nat /\ sectors secs /\ tmp <> path /\
    io_readable env = Some 4096%N /\ io_room env = None /\
    fs path = Some (List.concat secs) /\ List.length secs = 2%nat /\
    encrypt_bundle_payload C key env true true tmp path fs = (fs', Ok hex) /\
    exists b, fs' path = Some b /\ List.length b = N.to_nat 4096.
Proof. exact read_refuted. Qed.
Print Assumptions C52_read_refuted.

(** C52: the limit does not help against a short rest after the payload (there is
    none in a bundle with hash tree) *)
Theorem C52_short_tail_refuted :
  exists C hex tmpdir path size vs fs secs tail,
    good_cipher C /\ sectors secs /\ fs path = Some (List.concat secs ++ tail) /\
    (size - vs = N.of_nat (List.length (List.concat secs)))%N /\
    snd (decrypt_bundle_payload C hex no_io_errors true tmpdir path size vs fs) = Err.
Proof. exact short_tail_refuted. Qed.
Print Assumptions C52_short_tail_refuted.

(** C52: "no plain text copy is left behind" is false: every extraction leaves one *)
Theorem C52_plaintext_left : forall C hex env can tmpdir path size vs fs fs' b,
  path <> (tmpdir ++ "decrypted.raucb")%string ->
  decrypt_bundle_payload C hex env can tmpdir path size vs fs = (fs', Ok b) ->
  exists p, p <> path /\ fs' p = Some b.
Proof. exact plaintext_ok. Qed.
Print Assumptions C52_plaintext_left.
Theorem C52_plaintext_refuted :
  exists C hex tmpdir path size vs fs fs' plain p,
    good_cipher C /\ fs p = None /\
    decrypt_bundle_payload C hex no_io_errors true tmpdir path size vs fs = (fs', Ok plain) /\
    List.length plain = N.to_nat 4096 /\ fs' p = Some plain.
Proof. exact plaintext_refuted. Qed.
Print Assumptions C52_plaintext_refuted.
