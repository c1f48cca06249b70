(** C74: what the event log says about installations, and whether it can be read back. *)
From Verif Require Import Base LogText LogTextSpec LogTextProofs.
Open Scope list_scope.

Theorem C74_readable_log_can_be_read_back : forall verbose l l', plain_log l -> plain_log l' -> log_text verbose l = log_text verbose l' ->
  map (told_of verbose) l = map (told_of verbose) l'.
Proof. exact c74_read_back_ok. Qed.
Print Assumptions C74_readable_log_can_be_read_back.
Theorem C74_short_log_is_one_line_per_event : forall l, log_text false l = String.concat "" (map (fun x => fst x ++ ": " ++ message (snd x) ++ nl)%string l).
Proof. exact c74_short_ok. Qed.
Print Assumptions C74_short_log_is_one_line_per_event.
Theorem C74_lines : forall ts e, exists text, log_text false [(ts, e)] = (ts ++ ": " ++ text ++ nl)%string /\ line_says e text.
Proof. exact c74_lines_ok. Qed.
Print Assumptions C74_lines.
Theorem C74_line_breaks_forge_entries_refuted : exists l l', log_text true l = log_text true l' /\ List.length l <> List.length l' /\
  (forall ts e, In (ts, e) (l ++ l') -> timestamp ts) /\ (forall ts e, In (ts, e) l' -> one_line e).
Proof. exact c74_forged_refuted. Qed.
Print Assumptions C74_line_breaks_forge_entries_refuted.
Theorem C74_installation_logged_truthfully : forall a, exists ok x m un, do_install_bundle a = (ok, [EvStarted (a_txn a); EvDone (a_txn a) x m], un) /\
  (ok = true <-> x = Succeeded) /\
  (ok = true <-> Forall (fun o => o = None) [a_mounts a; a_check a; a_hash a; a_crypt a; a_mount a; a_group a; a_pre a; a_compat a; a_version a; a_handler a; a_post a]) /\
  (forall text, x = Rejected text <-> exists before k after, [a_mounts a; a_check a; a_hash a; a_crypt a; a_mount a; a_group a; a_pre a; a_compat a; a_version a; a_handler a; a_post a] = before ++ Some (k, text) :: after /\
     Forall (fun o => o = None) before /\ k <> KOther) /\
  (Forall (fun o => o = None) [a_mounts a; a_check a; a_hash a; a_crypt a; a_mount a] -> un = true) /\
  (a_mounts a <> None \/ a_check a <> None -> m = None).
Proof. exact c74_installation_ok. Qed.
Print Assumptions C74_installation_logged_truthfully.

Definition ex_log : list (string * event) :=
  [("2026-01-01T00:00:00Z", EvStarted "3f8a0c5e-1111"); ("2026-01-01T00:00:09Z", EvDone "3f8a0c5e-1111" (Rejected "Compatible mismatch") None);
   ("2026-01-01T00:01:00Z", EvActive "rootfs.0" (Some "A") None)]%string.
Example ex_plain_log : plain_log ex_log.
Proof.
  intros ts e [H|[H|[H|[]]]]; injection H as <- <-; (split; [repeat split|]); (split; [reflexivity|]); intros k v Hin; cbn in Hin;
    repeat (destruct Hin as [Hin|Hin]; [injection Hin as <- <-; reflexivity|]); destruct Hin.
Qed.
Example ex_log_text : log_text true ex_log =
  ("2026-01-01T00:00:00Z: Installation 3f8a0c5e started" ++ nl ++ "                      transaction ID: 3f8a0c5e-1111" ++ nl ++
   "2026-01-01T00:00:09Z: Installation 3f8a0c5e rejected: Compatible mismatch" ++ nl ++ "                      bundle hash: " ++ nl ++
   "                      bundle version: " ++ nl ++ "                      transaction ID: 3f8a0c5e-1111" ++ nl ++
   "2026-01-01T00:01:00Z: Marked slot rootfs.0 as active" ++ nl ++ "                      slot: rootfs.0" ++ nl ++ "                      bootname: A" ++ nl ++
   "                      bundle hash: " ++ nl)%string.
Proof. vm_compute. reflexivity. Qed.

Definition ex_attempt : attempt :=
  mkAttempt "3f8a" None None None None None None None (Some (KCompat, "Compatible mismatch: Expected 'a' but bundle manifest has 'b'"%string)) None None None
    (Some (mkMfields (Some "aa"%string) None (Some "1.0"%string))) (Some (mkMfields (Some "aa"%string) None (Some "1.0"%string))) false.
Example ex_rejected : do_install_bundle ex_attempt =
  (false, [EvStarted "3f8a"; EvDone "3f8a" (Rejected "Compatible mismatch: Expected 'a' but bundle manifest has 'b'") (Some (mkMfields (Some "aa"%string) None (Some "1.0"%string)))], true).
Proof. reflexivity. Qed.
