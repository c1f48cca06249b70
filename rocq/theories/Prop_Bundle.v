(** Property theorems for bundles (C35, C36, C37). *)
From Verif Require Import Base BaseLemmas Image KeyFile Hex HexProofs Semver Manifest ManifestCheckProofs Bundle BundleSpec BundleProofs.

(** C35: a file is accepted exactly if it has the documented layout *)
Theorem C35_local : forall maxsig f size sig, (N.of_nat (List.length f) < 2 ^ 64)%N ->
  (open_local maxsig f = Ok (size, sig) <-> trailer_ok maxsig f size sig).
Proof. exact c35_local_ok. Qed.
Print Assumptions C35_local.
Theorem C35_remote : forall maxsig f size sig, (N.of_nat (List.length f) < 2 ^ 64)%N ->
  (open_remote maxsig f = Ok (size, sig) <-> trailer_ok maxsig f size sig /\ size mod 4096 = 0).
Proof. exact c35_remote_ok. Qed.
Print Assumptions C35_remote.
Theorem C35_append : forall maxsig payload sig,
  (N.of_nat (List.length payload + List.length sig + 8) < 2 ^ 64)%N -> sig <> [] -> (N.of_nat (List.length sig) <= maxsig)%N ->
  open_local maxsig (append_signature payload sig) = Ok (List.length payload, sig) /\
  truncate_bundle (append_signature payload sig) (List.length payload) = payload.
Proof. exact c35_append_ok. Qed.
Print Assumptions C35_append.
Theorem C35_resign : forall maxsig f size sig sig', (N.of_nat (List.length f + List.length sig') < 2 ^ 64)%N ->
  open_local maxsig f = Ok (size, sig) -> sig' <> [] -> (N.of_nat (List.length sig') <= maxsig)%N ->
  open_local maxsig (resign f size sig') = Ok (size, sig') /\
  firstn size (resign f size sig') = firstn size f.
Proof. exact c35_resign_ok. Qed.
Print Assumptions C35_resign.

(** C36: whatever is done with a checked bundle, and however the file changes meanwhile,
    every access to its contents is covered by the signature *)
Theorem C36_access : forall o b ops, og_check o = Ok b ->
  Forall (authentic o) (run_ops (og_crypto o) (og_conf o) b ops).
Proof. exact c36_ok. Qed.
Print Assumptions C36_access.
Theorem C36_unchecked : forall cr cf remote ops, run_ops cr cf (new_bundle remote) ops = [].
Proof. exact c36_unchecked_ok. Qed.
Print Assumptions C36_unchecked.
Theorem C36_unaligned_refuted :
  ~ (forall o b f, og_check o = Ok b -> check_payload (og_crypto o) (og_conf o) f b <> Abort).
Proof. exact c36_unaligned_refuted. Qed.
Print Assumptions C36_unaligned_refuted.
Theorem C36_remount_refuted :
  ~ (forall o b f b1 e, og_check o = Ok b -> mount_bundle (og_crypto o) (og_conf o) f true b = Ok (b1, e) ->
     mount_bundle (og_crypto o) (og_conf o) f true (with_manifest b1 (b_manifest b1) false) <> Abort).
Proof. exact c36_remount_refuted. Qed.
Print Assumptions C36_remount_refuted.

Theorem C37_access : forall euid s, check_access euid s = true <-> safe_file euid s.
Proof. exact c37_access_ok. Qed.
Print Assumptions C37_access.
Theorem C37_enforce : forall euid chown chmod s s', enforce_exclusive euid chown chmod s = (true, s') ->
  safe_file euid s' /\
  (* the file changed at most as follows: given to root by root; permission bits removed *)
  (fs_uid s' = fs_uid s \/ (euid = 0%N /\ fs_uid s' = 0%N)) /\
  (forall k, N.testbit (fs_perm s') k = true -> N.testbit (fs_perm s) k = true).
Proof. exact c37_enforce_ok. Qed.
Print Assumptions C37_enforce.

(** non-vacuity: bundles that are checked, mounted and extracted *)
Definition run_origin (o : origin) (ops : list bop) : option (list access_ev) :=
  match og_check o with Ok b => Some (run_ops (og_crypto o) (og_conf o) b ops) | _ => None end.
Example ex_plain : run_origin (ex_origin false 5 ["D"; "p"]%char)
    [OpMount (ex_file 5 ["D"; "p"]%char) true; OpUmount; OpExtract [] true] = Some [AMountRaw 5; AExtract 5].
Proof. vm_compute. reflexivity. Qed.
Example ex_plain_bad : run_origin (ex_origin false 5 ["D"; "q"]%char) [] = None.
Proof. vm_compute. reflexivity. Qed.
Example ex_plain_remote : run_origin (ex_origin true 0 ["D"; "p"]%char) [] = None.
Proof. vm_compute. reflexivity. Qed.
Example ex_verity : run_origin (ex_origin false (2 * 4096) ["V"]%char)
    [OpMount [] true; OpUmount; OpMount [] true; OpUmount; OpExtract (ex_file (2 * 4096) []) true; OpExtract [] true]
  = Some [AMountVerity 4096 ex_hex ex_hex; AMountVerity 4096 ex_hex ex_hex; AExtract 8192; AExtract 8192].
Proof. vm_compute. reflexivity. Qed.
Example ex_verity_remote : run_origin (ex_origin true (2 * 4096) ["V"]%char)
    [OpMount [] true; OpExtract (ex_file (2 * 4096) []) true]
  = Some [AMountVerity 4096 ex_hex ex_hex].
Proof. vm_compute. reflexivity. Qed.
Example ex_crypt : run_origin (ex_origin true (2 * 4096) ["C"]%char) [OpMount [] true]
  = Some [AMountCrypt 4096 ex_hex ex_hex ex_hex].
Proof. vm_compute. reflexivity. Qed.
Example ex_foreign : run_origin (ex_origin false (2 * 4096) ["x"]%char) [OpMount [] true] = None.
Proof. vm_compute. reflexivity. Qed.
Example ex_trailer : open_local 100 (append_signature ["a"; "b"]%char ["s"; "i"; "g"]%char) = Ok (2, ["s"; "i"; "g"]%char).
Proof. vm_compute. reflexivity. Qed.
Example ex_trailer_short : open_local 100 ["a"; "b"]%char = Err.
Proof. vm_compute. reflexivity. Qed.
Example ex_safe : enforce_exclusive 0 true true
    (mkFstate true 1000 420 7 "ext4" (Some 1%N) [None; Some (3, 5)%N; Some (7, 0)%N] true)
  = (true, mkFstate true 0 420 7 "ext4" (Some 1%N) [None; Some (3, 5)%N; Some (7, 0)%N] true).
Proof. vm_compute. reflexivity. Qed.
Example ex_unsafe : check_access 0 (mkFstate true 0 438 7 "tmpfs" (Some 1%N) [] true) = false.
Proof. vm_compute. reflexivity. Qed.
