(** C60: the optional check of the whole bundle before it is mounted. *)
From Verif Require Import Base PreCheck PreCheckSpec PreCheckProofs.

Theorem C60_the_check_ends : forall kernel (d : device), honest kernel ->
  read_complete kernel d = Some true \/ read_complete kernel d = Some false.
Proof. exact check_ends. Qed.
Print Assumptions C60_the_check_ends.
Theorem C60_intact_bundles_pass : forall kernel (d : device), honest kernel ->
  (forall i, i < List.length d -> nth i d false = true) -> read_complete kernel d = Some true.
Proof. exact check_intact. Qed.
Print Assumptions C60_intact_bundles_pass.
Theorem C60_first_block_of_every_chunk_is_checked : forall kernel (d : device), honest kernel ->
  read_complete kernel d = Some true -> forall c, 16 * c < List.length d -> nth (16 * c) d false = true.
Proof. exact check_start_of_chunk. Qed.
Print Assumptions C60_first_block_of_every_chunk_is_checked.
Theorem C60_exact_if_reads_fail_as_a_whole : forall d : device,
  (read_complete whole_request d = Some true <-> forall i, i < List.length d -> nth i d false = true) /\
  (read_complete whole_request d = Some false <-> exists i, i < List.length d /\ nth i d false = false).
Proof. exact check_whole_request. Qed.
Print Assumptions C60_exact_if_reads_fail_as_a_whole.
Theorem C60_exact_for_the_page_cache : forall d : device,
  (read_complete page_cache d = Some true <->
   forall c, 16 * c < List.length d -> nth (16 * c) d false = true) /\
  (read_complete page_cache d = Some false <->
   exists c, 16 * c < List.length d /\ nth (16 * c) d false = false).
Proof. exact check_page_cache. Qed.
Print Assumptions C60_exact_for_the_page_cache.
Theorem C60_missed_corruption : forall (d : device) i,
  (forall j, j < List.length d -> nth j d false = true) -> i < List.length d -> i mod 16 <> 0 ->
  read_complete page_cache (firstn i d ++ false :: skipn (S i) d) = Some true.
Proof. exact missed_blocks. Qed.
Print Assumptions C60_missed_corruption.
Theorem C60_complete_check_refuted : ~ accepts_only_intact page_cache.
Proof. exact page_cache_misses. Qed.
Print Assumptions C60_complete_check_refuted.

(** Both kernels are among those the general theorems speak about. *)
Example C60_honest_kernels : honest page_cache /\ honest whole_request.
Proof. split; [exact page_cache_honest|exact whole_request_honest]. Qed.
(** 40 blocks, one bad: block 16 is the first of a chunk, block 17 is not. *)
Example C60_cases :
  let bad i := firstn i (repeat true 40) ++ false :: skipn (S i) (repeat true 40) in
  read_complete page_cache (bad 16) = Some false /\ read_complete page_cache (bad 17) = Some true /\
  read_complete whole_request (bad 17) = Some false /\ read_complete page_cache (repeat true 40) = Some true.
Proof. vm_compute. auto. Qed.
(** The hypotheses of C60_missed_corruption. *)
Example C60_missed_case : (forall j, j < List.length (repeat true 40) -> nth j (repeat true 40) false = true) /\ 17 mod 16 <> 0.
Proof.
  split; [|vm_compute; discriminate]. intros j J. rewrite repeat_length in J.
  transitivity (nth j (repeat true 40) true); [apply nth_indep; rewrite repeat_length; exact J|apply nth_repeat].
Qed.
