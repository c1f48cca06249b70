From Verif Require Import Base BaseLemmas EnvKey.

(** a character allowed in a generated variable name *)
Definition env_char (c : ascii) : bool := is_upper c || is_num c || Ascii.eqb c "_".
(** a character allowed in a key *)
Definition key_char (c : ascii) : bool := is_alnum c || Ascii.eqb c "_" || Ascii.eqb c "-".
(** the transformation, character by character *)
Definition env_conv (c : ascii) : ascii := if Ascii.eqb c "-" then "_"%char else to_upper c.
Fixpoint smap (f : ascii -> ascii) (s : string) : string :=
  match s with EmptyString => EmptyString | String c r => String (f c) (smap f r) end.

Lemma char_ok c :
  (if is_alnum (to_upper c) || Ascii.eqb (to_upper c) "_" then Some (to_upper c)
   else if Ascii.eqb (to_upper c) "-" then Some "_"%char else None)
  = (if key_char c then Some (env_conv c) else None) /\
  (key_char c = true -> env_char (env_conv c) = true).
Proof. destruct c as [[] [] [] [] [] [] [] []]; split; try reflexivity; intros H; try reflexivity; discriminate H. Qed.

Lemma env_key_eq s : env_key s = if all_chars key_char s then Some (smap env_conv s) else None.
Proof.
  induction s as [|c s IH]; [reflexivity|]. cbn [env_key all_chars smap]. rewrite IH.
  destruct (char_ok c) as [E _]. 
  destruct (is_alnum (to_upper c) || Ascii.eqb (to_upper c) "_").
  - destruct (key_char c); [|discriminate]. apply Some_inj in E. rewrite E. cbn [andb].
    destruct (all_chars key_char s); reflexivity.
  - destruct (Ascii.eqb (to_upper c) "-").
    + destruct (key_char c); [|discriminate]. apply Some_inj in E. rewrite <- E. cbn [andb].
      destruct (all_chars key_char s); reflexivity.
    + destruct (key_char c); [discriminate|reflexivity].
Qed.

Lemma c44_key_ok : forall k,
  (all_chars key_char k = false -> env_key k = None) /\
  (all_chars key_char k = true ->
     env_key k = Some (smap env_conv k) /\ all_chars env_char (smap env_conv k) = true).
Proof.
  intros k. rewrite env_key_eq. destruct (all_chars key_char k) eqn:E; split; intros H; try discriminate; try reflexivity.
  split; [reflexivity|]. clear H. induction k as [|c k IH]; [reflexivity|]. cbn in E |- *.
  apply andb_true_iff in E as [E1 E2]. rewrite (proj2 (char_ok c) E1). auto.
Qed.

Lemma c44_vars_ok : forall meta n v, In (n, v) (meta_vars meta) ->
  exists g kvs k eg ek, In (g, kvs) meta /\ In (k, v) kvs /\
    n = ("RAUC_META_" ++ eg ++ "_" ++ ek)%string /\
    eg = smap env_conv g /\ ek = smap env_conv k /\
    all_chars env_char eg = true /\ all_chars env_char ek = true.
Proof.
  intros meta n v H. unfold meta_vars in H. apply in_flat_map in H as ([g kvs] & Hg & H). cbn [fst snd] in H.
  destruct (env_key g) as [eg|] eqn:Eg; [|destruct H]. apply in_flat_map in H as ([k v'] & Hk & H). cbn [fst snd] in H.
  destruct (env_key k) as [ek|] eqn:Ek; [|destruct H]. destruct H as [H|[]]. inversion H; subst.
  exists g, kvs, k, eg, ek. destruct (c44_key_ok g) as [G1 G2]. destruct (c44_key_ok k) as [K1 K2].
  destruct (all_chars key_char g); [|rewrite G1 in Eg by reflexivity; discriminate].
  destruct (all_chars key_char k); [|rewrite K1 in Ek by reflexivity; discriminate].
  destruct (G2 eq_refl) as [X1 X2]. destruct (K2 eq_refl) as [Y1 Y2].
  rewrite X1 in Eg. apply Some_inj in Eg. rewrite Y1 in Ek. apply Some_inj in Ek. subst. auto 10.
Qed.

(** every key with a legal name (the parser accepts no others) is passed on *)
Lemma c44_vars_complete_ok : forall meta g kvs k v, In (g, kvs) meta -> In (k, v) kvs ->
  all_chars key_char g = true -> all_chars key_char k = true ->
  In (("RAUC_META_" ++ smap env_conv g ++ "_" ++ smap env_conv k)%string, v) (meta_vars meta).
Proof.
  intros meta g kvs k v Hg Hk G K. unfold meta_vars. apply in_flat_map. exists (g, kvs). split; [exact Hg|].
  cbn [fst snd]. rewrite (proj1 (proj2 (c44_key_ok g) G)). apply in_flat_map. exists (k, v). split; [exact Hk|].
  cbn [fst snd]. rewrite (proj1 (proj2 (c44_key_ok k) K)). now left.
Qed.

(** but different keys can give the same variable *)
Lemma c44_collision_refuted :
  exists m, map fst m = ["a"; "a-b"] /\
    meta_vars m = [("RAUC_META_A_B_C", "1"); ("RAUC_META_A_B_C", "2")].
Proof. exists [("a", [("b-c", "1")]); ("a-b", [("c", "2")])]. split; reflexivity. Qed.
