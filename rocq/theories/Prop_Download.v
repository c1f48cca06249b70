(** Property theorems for downloads (C53).  Vocabulary: DownloadSpec.v. *)
From Verif Require Import Base BaseLemmas Hex Download DownloadSpec DownloadProofs.

(** C53: a successful download leaves exactly the body in a new file, within the
    limit (given that the file system has room for it) *)
Theorem C53_success : forall limit body evs code room bufsize old can file,
  (0 <= limit < 2 ^ 63)%Z -> (Z.of_nat (List.length (delivered evs)) < 2 ^ 63)%Z ->
  honest_curl body evs code ->
  (N.of_nat (List.length body) <= room)%N ->
  download_file limit evs code can room bufsize old = (file, true) ->
  old = None /\ file = Some body /\ (limit <> 0 -> Z.of_nat (List.length body) <= limit)%Z.
Proof. exact download_ok. Qed.
Print Assumptions C53_success.
Example C53_success_ex :
  honest_curl ["a"; "b"; "c"]%char [CProgress 3 0; CData ["a"; "b"]%char; CProgress 3 2; CData ["c"]%char] true /\
  download_file 3 [CProgress 3 0; CData ["a"; "b"]%char; CProgress 3 2; CData ["c"]%char] true true 100 2 None
    = (Some ["a"; "b"; "c"]%char, true).
Proof. split; [intros _; reflexivity|reflexivity]. Qed.

(** C53: a body that fits is downloaded *)
Theorem C53_completes : forall limit body evs room bufsize,
  (0 <= limit < 2 ^ 63)%Z -> (Z.of_nat (List.length body) < 2 ^ 63)%Z ->
  delivered evs = body ->
  (N.of_nat (List.length body) <= room)%N ->
  (limit = 0 \/ Z.of_nat (List.length body) <= limit)%Z ->
  (forall t n, In (CProgress t n) evs -> t <= Z.of_nat (List.length body) /\ n <= Z.of_nat (List.length body))%Z ->
  download_file limit evs true true room bufsize None = (Some body, true).
Proof. exact completes_ok. Qed.
Print Assumptions C53_completes.

(** C53: never more than the limit reaches the disk, and never anything but the
    beginning of what the server sent *)
Theorem C53_limit : forall limit evs code can room bufsize file ok,
  (0 < limit < 2 ^ 63)%Z -> (Z.of_nat (List.length (delivered evs)) < 2 ^ 63)%Z ->
  download_file limit evs code can room bufsize None = (Some file, ok) ->
  (Z.of_nat (List.length file) <= limit)%Z /\ exists k, file = firstn k (delivered evs).
Proof. exact limit_ok. Qed.
Print Assumptions C53_limit.
Example C53_limit_ex :
  download_file 2 [CData ["a"; "b"]%char; CData ["c"]%char] true true 100 2 None = (Some ["a"; "b"]%char, false).
Proof. reflexivity. Qed.

(** C53: a body over the limit, announced or sent, makes the download fail *)
Theorem C53_too_large : forall limit evs code can room bufsize old file ok,
  (0 < limit < 2 ^ 63)%Z -> (Z.of_nat (List.length (delivered evs)) < 2 ^ 63)%Z ->
  (limit < Z.of_nat (List.length (delivered evs)))%Z \/ (exists t n, In (CProgress t n) evs /\ limit < t)%Z ->
  download_file limit evs code can room bufsize old = (file, ok) -> ok = false.
Proof. exact too_large_ok. Qed.
Print Assumptions C53_too_large.
Example C53_too_large_ex :
  download_file 2 [CProgress 3 0; CData ["a"]%char] true true 100 2 None = (Some [], false).
Proof. reflexivity. Qed.

(** C53: an existing file is not touched *)
Theorem C53_existing : forall limit evs code can room bufsize old,
  download_file limit evs code can room bufsize (Some old) = (Some old, false).
Proof. exact existing_ok. Qed.
Print Assumptions C53_existing.

(** C53 needs room: errors of the last flush are ignored *)
Theorem C53_short_file_refuted :
  exists limit body evs code room bufsize file,
    honest_curl body evs code /\
    download_file limit evs code true room bufsize None = (Some file, true) /\ file <> body.
Proof. exact short_file_refuted. Qed.
Print Assumptions C53_short_file_refuted.
