(** Property theorems for environment variables of hooks (C44). *)
From Verif Require Import Base BaseLemmas EnvKey EnvKeyProofs.

Theorem C44_key : forall k,
  (all_chars key_char k = false -> env_key k = None) /\
  (all_chars key_char k = true ->
     env_key k = Some (smap env_conv k) /\ all_chars env_char (smap env_conv k) = true).
Proof. exact c44_key_ok. Qed.
Print Assumptions C44_key.
Theorem C44_vars : forall meta n v, In (n, v) (meta_vars meta) ->
  exists g kvs k eg ek, In (g, kvs) meta /\ In (k, v) kvs /\
    n = ("RAUC_META_" ++ eg ++ "_" ++ ek)%string /\
    eg = smap env_conv g /\ ek = smap env_conv k /\
    all_chars env_char eg = true /\ all_chars env_char ek = true.
Proof. exact c44_vars_ok. Qed.
Print Assumptions C44_vars.
Theorem C44_vars_complete : forall meta g kvs k v, In (g, kvs) meta -> In (k, v) kvs ->
  all_chars key_char g = true -> all_chars key_char k = true ->
  In (("RAUC_META_" ++ smap env_conv g ++ "_" ++ smap env_conv k)%string, v) (meta_vars meta).
Proof. exact c44_vars_complete_ok. Qed.
Print Assumptions C44_vars_complete.
Theorem C44_collision_refuted :
  exists m, map fst m = ["a"; "a-b"] /\
    meta_vars m = [("RAUC_META_A_B_C", "1"); ("RAUC_META_A_B_C", "2")].
Proof. exact c44_collision_refuted. Qed.
Print Assumptions C44_collision_refuted.

Example ex_env_key : env_key "Foo-bar_1" = Some "FOO_BAR_1" /\ env_key "a b" = None /\
  meta_vars [("ci", [("build-id", "7")])] = [("RAUC_META_CI_BUILD_ID", "7")].
Proof. repeat split. Qed.
