(** C75: the cached block hash indexes of slots. *)
From Verif Require Import Base KeyFile IndexCache IndexCacheSpec IndexCacheProofs.
Open Scope list_scope.

Theorem C75_other_files_untouched : forall (I : Type) (w : st I) h, foreign (x_dirs (history w h)) = foreign (x_dirs w).
Proof. exact c75_foreign_ok. Qed.
Print Assumptions C75_other_files_untouched.
Theorem C75_index_origin : forall (I : Type) (w : st I) h d j, proper_digests h -> cached (history w h) d j ->
  (d <> "unknown"%string -> cached w d j \/ came_with h d j) /\
  ((exists d', cached w d' j) \/ exists i, In i (images h) /\ i_index i = Some j).
Proof. exact c75_origin_ok. Qed.
Print Assumptions C75_index_origin.
Theorem C75_seed_index_origin : forall (I : Type) (w : st I) h b d j, proper_digests h -> (forall d' j', ~ cached w d' j') ->
  s_digest (x_mem (history w h)) = Some d -> sha256_text d -> fst (seed_index b (history w h)) = Some j -> came_with h d j.
Proof. exact c75_seed_ok. Qed.
Print Assumptions C75_seed_index_origin.
Theorem C75_one_index_left : forall (I : Type) (w : st I) o i d, i_digest i = Some d -> o_save_pending o = true -> (forall k n, o_clean o k n = RmAll) ->
  forall n v, In (n, v) (x_dirs (replay w (use_events (attempt o i w)))) -> has_prefix "hash-" n = true -> n = ("hash-" ++ d)%string.
Proof. exact c75_settled_ok. Qed.
Print Assumptions C75_one_index_left.
Theorem C75_index_found_again : forall (I : Type) (w : st I) o i d ix, i_digest i = Some d -> i_index i = Some ix -> sha256_text d ->
  (o_same o = true \/ s_status (x_mem w) <> Some "ok"%string \/ s_digest (x_mem w) <> Some d) ->
  o_save_pending o = true -> o_mkdir o = true -> o_adaptive o = true -> o_export_dir o = true -> o_export o = true -> o_hooks o = true -> o_save o = true ->
  forall w', w' = history w [Install i o] \/ w' = history w [Install i o; Restart] ->
    fst (seed_index true w') = Some ix /\
    forall o2 i2, i_index i2 <> None -> (o_same o2 = true \/ i_digest i2 <> Some d) -> o_move_rm o2 = RmAll -> o_move o2 = true -> o_save_pending o2 = true -> o_mkdir o2 = true ->
      fst (fst (attempt o2 i2 w')) = Some ix.
Proof. exact c75_reuse_ok. Qed.
Print Assumptions C75_index_found_again.

Definition dA : string := "aaaaaaaaaaaaaaaaaaaaaaaaaaaaaaaaaaaaaaaaaaaaaaaaaaaaaaaaaaaaaaaa".
Definition dB : string := "0123456789abcdef0123456789abcdef0123456789abcdef0123456789abcdef".
Example ex_digests : sha256_text dA /\ sha256_text dB.
Proof. repeat split. Qed.
Definition all_ok : out := mkOut false (fun _ _ => RmAll) RmAll true true true true true true true true true.
Definition w_new : st nat := mkState (mkSt None None) (mkSt None None) [("notes.txt"%string, None)].
Definition imA : img nat := mkImg (Some dA) (Some 1).
Definition imB : img nat := mkImg (Some dB) (Some 2).
(** A is installed, then B is interrupted after 6 steps, then B is installed again *)
Example ex_history : x_dirs (history w_new [Install imA all_ok; Seed true; InstallCut imB all_ok 6; Install imB all_ok]) = [("notes.txt"%string, None); (("hash-" ++ dB)%string, Some 2)]
  /\ x_dirs (history w_new [Install imA all_ok; InstallCut imB all_ok 3]) = [("notes.txt"%string, None); ("hash-unknown"%string, Some 1)]
  /\ fst (fst (attempt all_ok imB (history w_new [Install imA all_ok; InstallCut imB all_ok 3]))) = Some 1.
Proof. vm_compute. repeat split. Qed.
Example ex_proper : proper_digests [Install imA all_ok; InstallCut imB all_ok 3].
Proof. intros i d [<-|[<-|[]]] E; injection E as <-; apply ex_digests. Qed.
