(** Property theorems for version comparison (C15). *)
From Verif Require Import Base BaseLemmas Semver SemverSpec SemverProofs.

(** every written version is accepted and compared by SemVer precedence *)
Theorem C15_semver : forall na pa ba nb pb bb,
  written_ok na pa ba -> written_ok nb pb bb ->
  exists r, semver_less_equal (written na pa ba) (written nb pb bb) = Ok r /\
    (r = true <-> version_le (mkVersion (pad3 na) pa) (mkVersion (pad3 nb) pb)).
Proof. exact c15_semver_ok. Qed.
Print Assumptions C15_semver.

(** reflexive, transitive, total on all accepted strings, and never an abort *)
Theorem C15_preorder :
  (forall a r, semver_less_equal a a = r -> r = Ok true \/ r = Err) /\
  (forall a b c, semver_less_equal a b = Ok true -> semver_less_equal b c = Ok true -> semver_less_equal a c = Ok true) /\
  (forall a b, semver_less_equal a b = Ok false -> semver_less_equal b a = Ok true) /\
  (forall a b, semver_less_equal a b = Err <->
     semver_less_equal a a = Err \/ semver_less_equal b b = Err) /\
  (forall a b, semver_less_equal a b <> Abort).
Proof. exact c15_preorder_ok. Qed.
Print Assumptions C15_preorder.

(** what is accepted *)
Theorem C15_accepted : forall s, no_char (ascii_of_nat 11) s = true -> semver_less_equal s s <> Err ->
  exists parts tail, s = (join "." parts ++ tail)%string /\
    1 <= List.length parts <= 3 /\ Forall (fun p => all_digits p = true) parts /\
    (tail = "" \/ exists r, tail = String "-" r \/ tail = String "+" r).
Proof. exact c15_accept_ok. Qed.
Print Assumptions C15_accepted.

(** the min-rauc-version gate *)
Theorem C15_min_rauc_version : forall rauc v,
  check_min_rauc_version rauc (Some v) = true <->
  semver_less_equal v rauc = Ok true /\ semver_less_equal v "1.13" = Ok false.
Proof. exact c15_min_rauc_ok. Qed.
Print Assumptions C15_min_rauc_version.

(** limits: hyphens inside a pre-release, numbers beyond 64 bit *)
Theorem C15_hyphen_refuted : semver_less_equal "1.0.0-alpha-1" "1.0.0" = Err.
Proof. exact c15_hyphen_refuted. Qed.
Print Assumptions C15_hyphen_refuted.
Theorem C15_big_number_refuted :
  semver_less_equal "1.0.0-100000000000000000000" "1.0.0-99999999999999999999" = Ok true /\
  (99999999999999999999 < 100000000000000000000)%N /\
  semver_less_equal "1.0.0-99999999999999999999" "1.0.0-100000000000000000000" = Ok false.
Proof. exact c15_big_number_refuted. Qed.
Print Assumptions C15_big_number_refuted.

Example ex_written : written_ok [1; 2]%N (Some [Alpha "rc"; Num 3]) (Some "g12-3") /\
  written [1; 2]%N (Some [Alpha "rc"; Num 3]) (Some "g12-3") = "1.2-rc.3+g12-3".
Proof.
  split; [|reflexivity]. repeat split; cbn; try lia; try discriminate; repeat constructor; cbn; repeat split; try discriminate; lia.
Qed.
Example ex_prec :
  version_lt (mkVersion [1; 2; 0]%N (Some [Alpha "rc"; Num 3])) (mkVersion [1; 2; 0]%N (Some [Alpha "rc"; Num 12])) /\
  semver_less_equal "1.2-rc.3" "1.2-rc.12" = Ok true /\ semver_less_equal "1.2-rc.12" "1.2-rc.3" = Ok false.
Proof.
  split; [|split; reflexivity]. right. split; [reflexivity|]. cbn. apply lex_tail, lex_head. cbn. lia.
Qed.
