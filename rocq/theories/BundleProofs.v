From Verif Require Import Base BaseLemmas Image KeyFile Hex HexProofs Semver Manifest Bundle ManifestCheckProofs BundleSpec.

(** ** C35 *)
Lemma de_be_bytes k : forall n a, (n < 256 ^ N.of_nat k)%N ->
  fold_left (fun a c => (a * 256 + N_of_ascii c)%N) (be_bytes k n) a = (a * 256 ^ N.of_nat k + n)%N.
Proof.
  assert (G : forall k n a, fold_left (fun a c => (a * 256 + N_of_ascii c)%N) (be_bytes k n) a
     = (a * 256 ^ N.of_nat k + n mod 256 ^ N.of_nat k)%N).
  { clear. induction k as [|k IH]; intros n a.
    - cbn. rewrite N.mod_1_r. lia.
    - cbn [be_bytes fold_left]. rewrite IH. rewrite N_ascii_embedding by (apply N.mod_lt; lia).
      replace (N.of_nat (S k)) with (N.succ (N.of_nat k)) by lia. rewrite N.pow_succ_r'.
      rewrite (N.mul_comm 256). rewrite N.mod_mul_r by (try apply N.pow_nonzero; lia). ring. }
  intros n a H. rewrite G, N.mod_small by exact H. reflexivity.
Qed.
Lemma de_be64 n : (n < 2 ^ 64)%N -> de_be (be64 n) = n.
Proof. intros H. unfold de_be, be64. rewrite de_be_bytes; [lia|]. exact H. Qed.
Lemma be_bytes_length k n : List.length (be_bytes k n) = k.
Proof. revert n; induction k; intros; cbn; auto. Qed.

Lemma be_bytes_de k : forall l, List.length l = k ->
  be_bytes k (de_be l) = l.
Proof.
  assert (V : forall l a, fold_left (fun a c => (a * 256 + N_of_ascii c)%N) l a = (a * 256 ^ N.of_nat (List.length l) + de_be l)%N).
  { induction l as [|c l IH]; intros a; [cbn; lia|]. unfold de_be. cbn [fold_left List.length]. rewrite IH, (IH (0 * 256 + _)%N).
    replace (N.of_nat (S (List.length l))) with (N.succ (N.of_nat (List.length l))) by lia. rewrite N.pow_succ_r'. ring. }
  assert (B : forall l, (de_be l < 256 ^ N.of_nat (List.length l))%N).
  { induction l as [|c l IH]; [cbn; lia|]. unfold de_be. cbn [fold_left List.length]. rewrite V.
    pose proof (N_ascii_bounded c).
    replace (N.of_nat (S (List.length l))) with (N.succ (N.of_nat (List.length l))) by lia. rewrite N.pow_succ_r'.
    nia. }
  assert (M : forall k n m, (m mod 256 ^ N.of_nat k = n mod 256 ^ N.of_nat k)%N -> be_bytes k m = be_bytes k n).
  { clear. induction k as [|k IH]; intros n m H; [reflexivity|]. cbn [be_bytes].
    replace (N.of_nat (S k)) with (N.succ (N.of_nat k)) in H by lia. rewrite N.pow_succ_r' in H. rewrite (N.mul_comm 256) in H.
    rewrite !N.mod_mul_r in H by (try apply N.pow_nonzero; lia).
    assert (P : (0 < 256 ^ N.of_nat k)%N) by (apply N.neq_0_lt_0, N.pow_nonzero; lia).
    pose proof (N.mod_lt m (256 ^ N.of_nat k) ltac:(lia)). pose proof (N.mod_lt n (256 ^ N.of_nat k) ltac:(lia)).
    assert (X : (m / 256 ^ N.of_nat k mod 256 = n / 256 ^ N.of_nat k mod 256 /\ m mod 256 ^ N.of_nat k = n mod 256 ^ N.of_nat k)%N).
    { apply (N.div_mod_unique (256 ^ N.of_nat k)); [assumption|assumption|].
      lia. }
    destruct X as [X1 X2]. rewrite X1. f_equal. now apply IH. }
  induction k as [|k IH]; intros l H; [destruct l; [reflexivity|discriminate]|].
  destruct l as [|c l]; [discriminate|]. injection H as H. cbn [be_bytes].
  assert (E : de_be (c :: l) = (N_of_ascii c * 256 ^ N.of_nat k + de_be l)%N).
  { unfold de_be at 1. cbn [fold_left]. rewrite V, H. lia. }
  pose proof (B l) as Bl. rewrite H in Bl.
  assert (P : (0 < 256 ^ N.of_nat k)%N) by (apply N.neq_0_lt_0, N.pow_nonzero; lia).
  rewrite E. f_equal.
  - rewrite N.div_add_l by lia. rewrite (N.div_small (de_be l)) by exact Bl. rewrite N.add_0_r.
    rewrite N.mod_small by apply N_ascii_bounded. apply ascii_N_embedding.
  - etransitivity; [|exact (IH l H)]. apply M. rewrite N.add_comm, N.mod_add by lia. reflexivity.
Qed.

Lemma skipn_add {A} m n (l : list A) : skipn n (skipn m l) = skipn (m + n) l.
Proof. revert l. induction m as [|m IH]; intros l; [reflexivity|]. destruct l; cbn; [now rewrite skipn_nil|apply IH]. Qed.

Lemma skipn_app_len {A} (a b : list A) n : n = List.length a -> skipn n (a ++ b) = b.
Proof. intros ->. rewrite skipn_app, skipn_all, Nat.sub_diag. reflexivity. Qed.
Lemma firstn_app_len {A} (a b : list A) n : n = List.length a -> firstn n (a ++ b) = a.
Proof. intros ->. rewrite firstn_app, firstn_all, Nat.sub_diag. cbn. apply app_nil_r. Qed.

(** the file is accepted exactly when it ends with a signature and its size *)
Lemma c35_local_ok : forall maxsig f size sig, (N.of_nat (List.length f) < 2 ^ 64)%N ->
  (open_local maxsig f = Ok (size, sig) <-> trailer_ok maxsig f size sig).
Proof.
  intros maxsig f size sig HL. unfold trailer_ok. split.
  - unfold open_local. intros H.
    destruct (Nat.ltb_spec (List.length f) 8) as [|L]; [discriminate|].
    set (off := List.length f - 8) in *. set (sg := de_be (skipn off f)) in *.
    destruct (N.eqb_spec sg 0) as [|Z]; [discriminate|].
    destruct (N.ltb_spec (N.of_nat off) sg) as [|B]; [discriminate|].
    destruct (N.ltb_spec maxsig sg) as [|M]; [discriminate|].
    apply Ok_inj in H. injection H as <- <-.
    set (n := off - N.to_nat sg) in *.
    assert (L1 : List.length (firstn (N.to_nat sg) (skipn n f)) = N.to_nat sg).
    { rewrite firstn_length, skipn_length. unfold n, off. lia. }
    rewrite L1. rewrite N2Nat.id.
    assert (L3 : List.length (skipn off f) = 8) by (rewrite skipn_length; unfold off; lia).
    assert (T : be64 sg = skipn off f) by exact (be_bytes_de 8 _ L3).
    rewrite T. assert (S : skipn off f = skipn (N.to_nat sg) (skipn n f)).
    { rewrite skipn_add. f_equal. unfold n. lia. }
    rewrite S, firstn_skipn, firstn_skipn. repeat split; auto.
    + rewrite firstn_length. unfold n, off. lia.
    + intros E. rewrite E in L1. cbn in L1. lia.
  - intros (E & L & NE & M). unfold open_local.
    assert (LF : List.length f = size + List.length sig + 8).
    { rewrite E at 1. rewrite !app_length, L. unfold be64. rewrite be_bytes_length. lia. }
    destruct (Nat.ltb_spec (List.length f) 8) as [B|_]; [lia|].
    assert (T : skipn (List.length f - 8) f = be64 (N.of_nat (List.length sig))).
    { rewrite E at 2. rewrite app_assoc. apply skipn_app_len. rewrite app_length, L. lia. }
    rewrite T. rewrite de_be64 by lia.
    assert (0 < List.length sig) by (destruct sig; [congruence|cbn; lia]).
    destruct (N.eqb_spec (N.of_nat (List.length sig)) 0); [lia|].
    destruct (N.ltb_spec (N.of_nat (List.length f - 8)) (N.of_nat (List.length sig))); [lia|].
    destruct (N.ltb_spec maxsig (N.of_nat (List.length sig))); [lia|].
    rewrite Nat2N.id. replace (List.length f - 8 - List.length sig) with size by lia.
    f_equal. f_equal. rewrite E at 1. rewrite skipn_app_len by auto. now apply firstn_app_len.
Qed.

Lemma remote_local maxsig f size sig :
  open_remote maxsig f = Ok (size, sig) <-> open_local maxsig f = Ok (size, sig) /\ size mod 4096 = 0.
Proof.
  unfold open_remote, open_local.
  destruct (Nat.ltb (List.length f) 8); [intuition discriminate|].
  destruct (de_be _ =? 0)%N; [intuition discriminate|].
  destruct (_ <? _)%N; [intuition discriminate|]. destruct (_ <? _)%N; [intuition discriminate|].
  cbv zeta. match goal with |- context [Nat.eqb ?a 0] => destruct (Nat.eqb_spec a 0) as [E|E] end; cbn [negb].
  - split; [intros H; split; [exact H|]|now intros [H _]]. apply Ok_inj in H. injection H as <- _. exact E.
  - split; [discriminate|]. intros [H1 H2]. apply Ok_inj in H1. injection H1 as <- _. contradiction.
Qed.

Lemma c35_remote_ok : forall maxsig f size sig, (N.of_nat (List.length f) < 2 ^ 64)%N ->
  (open_remote maxsig f = Ok (size, sig) <-> trailer_ok maxsig f size sig /\ size mod 4096 = 0).
Proof. intros. rewrite remote_local, c35_local_ok by assumption. reflexivity. Qed.

Lemma c35_append_ok : forall maxsig payload sig,
  (N.of_nat (List.length payload + List.length sig + 8) < 2 ^ 64)%N -> sig <> [] -> (N.of_nat (List.length sig) <= maxsig)%N ->
  open_local maxsig (append_signature payload sig) = Ok (List.length payload, sig) /\
  truncate_bundle (append_signature payload sig) (List.length payload) = payload.
Proof.
  intros maxsig p sig HL HN HM. unfold append_signature, truncate_bundle.
  assert (F : firstn (List.length p) (p ++ sig ++ be64 (N.of_nat (List.length sig))) = p) by now apply firstn_app_len.
  split; [|exact F]. apply c35_local_ok.
  - rewrite !app_length. unfold be64. rewrite be_bytes_length. lia.
  - unfold trailer_ok. rewrite F. auto.
Qed.

(** re-signing keeps the payload *)
Lemma c35_resign_ok : forall maxsig f size sig sig', (N.of_nat (List.length f + List.length sig') < 2 ^ 64)%N ->
  open_local maxsig f = Ok (size, sig) -> sig' <> [] -> (N.of_nat (List.length sig') <= maxsig)%N ->
  open_local maxsig (resign f size sig') = Ok (size, sig') /\
  firstn size (resign f size sig') = firstn size f.
Proof.
  intros maxsig f size sig sig' HL HO HN HM. apply c35_local_ok in HO as (E & L & NE & M); [|lia].
  assert (LF : List.length f = size + List.length sig + 8).
  { rewrite E at 1. rewrite !app_length, L. unfold be64. rewrite be_bytes_length. lia. }
  unfold resign, truncate_bundle.
  destruct (c35_append_ok maxsig (firstn size f) sig') as [O1 O2]; [rewrite L; lia|exact HN|exact HM|].
  rewrite L in O1, O2. split; [exact O1|exact O2].
Qed.

(** ** C37 *)
Lemma perm_ok p : N.ldiff p 493 = 0%N <->
  N.testbit p 4 = false /\ N.testbit p 1 = false /\ forall k, (9 <= k)%N -> N.testbit p k = false.
Proof.
  assert (B : forall k, (9 <= k)%N -> N.testbit 493 k = false).
  { intros k Hk. apply N.bits_above_log2. change (N.log2 493) with 8%N. lia. }
  split.
  - intros H. assert (G : forall k, N.testbit 493 k = false -> N.testbit p k = false).
    { intros k Hk. assert (X : N.testbit (N.ldiff p 493) k = false) by (rewrite H; apply N.bits_0).
      rewrite N.ldiff_spec, Hk in X. now rewrite andb_true_r in X. }
    repeat split; try (apply G; reflexivity). intros k Hk. apply G, B, Hk.
  - intros (H4 & H1 & H9). apply N.bits_inj. intros k. rewrite N.bits_0, N.ldiff_spec.
    destruct (N.leb_spec 9 k) as [L|L]; [now rewrite H9|].
    assert (D : (k = 0 \/ k = 1 \/ k = 2 \/ k = 3 \/ k = 4 \/ k = 5 \/ k = 6 \/ k = 7 \/ k = 8)%N) by lia.
    repeat destruct D as [D|D]; subst k; rewrite ?H4, ?H1; try reflexivity; apply andb_false_r.
Qed.

Lemma find_mount_spec d l uid : find_mount d l = Some uid <->
  exists pre post, l = pre ++ Some (d, uid) :: post /\ forall u, ~ In (Some (d, u)) pre.
Proof.
  split.
  - induction l as [|[[rd u]|] l IH]; cbn; [discriminate| |].
    + destruct (N.eqb_spec rd d) as [->|N].
      * intros H. injection H as ->. exists [], l. cbn; auto.
      * intros H. destruct (IH H) as (pre & post & -> & P). exists (Some (rd, u) :: pre), post. split; [reflexivity|].
        intros v [X|X]; [congruence|exact (P v X)].
    + intros H. destruct (IH H) as (pre & post & -> & P). exists (None :: pre), post. split; [reflexivity|].
      intros v [X|X]; [congruence|exact (P v X)].
  - intros (pre & post & -> & P). induction pre as [|[[rd u]|] pre IH]; cbn.
    + now rewrite N.eqb_refl.
    + destruct (N.eqb_spec rd d) as [->|N]; [exfalso; apply (P u); now left|]. apply IH. intros v X. apply (P v). now right.
    + apply IH. intros v X. apply (P v). now right.
Qed.

Lemma existsb_In t l : existsb (String.eqb t) l = true <-> In t l.
Proof.
  rewrite existsb_exists. split.
  - intros (x & Hx & E). apply String.eqb_eq in E. now subst.
  - intros H. exists t. split; [exact H|apply String.eqb_refl].
Qed.

Lemma c37_access_ok : forall euid s, check_access euid s = true <-> safe_file euid s.
Proof.
  intros euid s. unfold check_access, safe_file.
  destruct (fs_regular s); cbn [negb]; [|intuition discriminate].
  destruct (negb (fs_uid s =? 0)%N && negb (fs_uid s =? euid)%N) eqn:U.
  { apply andb_true_iff in U as [U1 U2]. apply negb_true_iff, N.eqb_neq in U1, U2. intuition discriminate. }
  assert (U' : fs_uid s = 0%N \/ fs_uid s = euid).
  { apply andb_false_iff in U. rewrite !negb_false_iff, !N.eqb_eq in U. exact U. }
  destruct (N.eqb_spec (N.ldiff (fs_perm s) 493) 0) as [P|P]; cbn [negb].
  2: { split; [discriminate|]. intros (_ & _ & P1 & P2 & P3 & _). exfalso. apply P. apply perm_ok. auto. }
  apply perm_ok in P as (P1 & P2 & P3).
  destruct (fs_root_dev s) as [rd|].
  2: { split; [discriminate|]. intros (_ & _ & _ & _ & _ & [X|[X _]] & _); congruence. }
  set (checked := if (rd =? fs_dev s)%N then true else _).
  assert (C : checked = true <-> (Some rd = Some (fs_dev s) \/
     (Some rd <> None /\
    (In (fs_type s) ["hostfs"; "overlayfs"; "ramfs"; "tmpfs"; "ubifs"; "zfs"] \/
     (In (fs_type s) ["afs"; "btrfs"; "cramfs"; "exfat"; "ext4"; "f2fs"; "isofs"; "jffs2"; "msdos"; "ntfs"; "ntfs3";
                      "romfs"; "squashfs"; "udf"; "xfs"] /\
      exists pre post, fs_mounts s = pre ++ Some (fs_dev s, 0%N) :: post /\
        forall uid, ~ In (Some (fs_dev s, uid)) pre))))).
  { unfold checked. destruct (N.eqb_spec rd (fs_dev s)) as [E|N]; [rewrite E; intuition|].
    unfold fs_kind. rewrite <- find_mount_spec. rewrite <- !existsb_In.
    destruct (existsb (String.eqb (fs_type s)) ["fuse"; "nfs"]) eqn:K1.
    { apply existsb_In in K1. cbn in K1. destruct K1 as [K|[K|[]]]; rewrite <- K; cbn; intuition congruence. }
    destruct (existsb (String.eqb (fs_type s)) ["afs"; "btrfs"; "cramfs"; "exfat"; "ext4"; "f2fs"; "isofs"; "jffs2"; "msdos"; "ntfs"; "ntfs3"; "romfs"; "squashfs"; "udf"; "xfs"]) eqn:K2.
    { assert (K3 : existsb (String.eqb (fs_type s)) ["hostfs"; "overlayfs"; "ramfs"; "tmpfs"; "ubifs"; "zfs"] = false).
      { apply existsb_In in K2. cbn in K2. 
        repeat match type of K2 with _ \/ _ => destruct K2 as [K2|K2] end; try (rewrite <- K2; reflexivity). destruct K2. }
      rewrite K3. destruct (find_mount (fs_dev s) (fs_mounts s)) as [u|]; [|intuition congruence].
      rewrite N.eqb_eq. split; [intros ->; right; split; [discriminate|]; right; auto|]. intros [X|(_ & [X|[_ X]])]; congruence. }
    destruct (existsb (String.eqb (fs_type s)) ["hostfs"; "overlayfs"; "ramfs"; "tmpfs"; "ubifs"; "zfs"]) eqn:K3.
    - split; [|reflexivity]. intros _. right. split; [discriminate|]. left; auto.
    - split; [discriminate|]. intros [X|(_ & [X|[X _]])]; congruence. }
  destruct checked; cbn [negb].
  - destruct C as [C _]. specialize (C eq_refl). split; [intros L; repeat split; auto|]. intros (_ & _ & _ & _ & _ & _ & X). exact X.
  - split; [discriminate|]. intros (_ & _ & _ & _ & _ & X & _). destruct C as [_ C]. discriminate (C X).
Qed.

Lemma c37_enforce_ok : forall euid chown chmod s s', enforce_exclusive euid chown chmod s = (true, s') ->
  safe_file euid s' /\
  (* the file changed at most as follows: given to root by root; permission bits removed *)
  (fs_uid s' = fs_uid s \/ (euid = 0%N /\ fs_uid s' = 0%N)) /\
  (forall k, N.testbit (fs_perm s') k = true -> N.testbit (fs_perm s) k = true).
Proof.
  intros euid chown chmod s s' H. unfold enforce_exclusive in H.
  destruct (check_access euid s) eqn:C.
  - injection H as <-. apply c37_access_ok in C. auto.
  - injection H as H E. rewrite E in H. apply c37_access_ok in H. split; [exact H|]. subst s'. clear.
    assert (P : forall p k, N.testbit (N.land p 420) k = true -> N.testbit p k = true).
    { intros p k. rewrite N.land_spec, andb_true_iff. tauto. }
    unfold take_ownership. destruct (_ && _).
    + destruct (N.eqb_spec euid 0) as [->|]; cbn [negb]; [|auto]. destruct chown; [|auto]. cbn [fs_perm fs_uid].
      destruct (N.eqb_spec (N.land (fs_perm s) 420) (fs_perm s)); cbn; [auto|]. destruct chmod; cbn; eauto.
    + destruct (N.eqb_spec (N.land (fs_perm s) 420) (fs_perm s)); cbn; [auto|]. destruct chmod; cbn; eauto.
Qed.

(** ** C36 *)
Record binv (o : origin) (b : bundle) : Prop := {
  bi_remote : b_remote b = og_remote o;
  bi_disabled : b_disabled b = negb (bp_verify (og_params o));
  bi_kind :
    (* plain: payload signed; the manifest is loaded when mounting *)
    ((b_manifest b = None \/ exists m, b_manifest b = Some m /\ mf_format m = F_PLAIN) /\
     signed_payload o (b_size b) /\ bc_allowed (og_conf o) F_PLAIN = true /\
     (bp_verify (og_params o) = true -> b_payload_verified b = true)) \/
    (exists m l, b_manifest b = Some (with_images m l) /\ mf_format m <> F_PLAIN /\
       signed_manifest o (b_size b) m /\ bc_allowed (og_conf o) (mf_format m) = true /\
       (b_exclusive b = true -> og_remote o = false /\ (bp_trust_env (og_params o) = true \/ og_access o = true)) /\
       (bp_verify (og_params o) = true -> b_payload_verified b = true ->
          og_remote o = false /\ (bp_trust_env (og_params o) = true \/ og_access o = true) /\
          exists f root salt ds, verity_fields o (b_size b) (mf_format m) ds root salt m /\ (0 <= ds)%Z /\
             cm_verity (og_crypto o) (firstn (b_size b) f) (Z.to_nat ds) root salt = true))
}.

Lemma check_bundle_inv o b : og_check o = Ok b -> binv o b.
Proof.
  unfold og_check, check_bundle. intros H.
  destruct (bp_verify (og_params o) && negb (bc_keyring (og_conf o))) eqn:K; [discriminate|].
  assert (K' : bp_verify (og_params o) = true -> bc_keyring (og_conf o) = true).
  { intros V. rewrite V in K. cbn in K. now apply negb_false_iff in K. }
  change (if og_remote o then _ else _) with (og_open o) in H.
  apply bind_ok in H as ([size raw] & Ho & H). apply bind_ok in H as (det & Hd & H).
  destruct (cm_detached (og_crypto o) raw) as [det'|] eqn:Ed; [|discriminate]. apply Ok_inj in Hd. subst det'.
  destruct (det && og_remote o) eqn:R; [discriminate|].
  apply bind_ok in H as ([enc sig] & He & H).
  assert (BS : bundle_sig o size sig det).
  { exists raw. repeat split; auto. destruct (cm_enveloped (og_crypto o) raw).
    - destruct (bc_key (og_conf o)); [|discriminate]. destruct (cm_decrypt (og_crypto o) raw); [|discriminate].
      apply Ok_inj in He. congruence.
    - apply Ok_inj in He. congruence. }
  apply bind_ok in H as ([b0 mb] & Hb & H). apply bind_ok in H as (m & Hm & H).
  destruct (format_allowed (og_conf o) m) eqn:FA; [|discriminate]. cbn [negb] in H. apply Ok_inj in H. subst b.
  destruct det.
  - (* detached *)
    cbn in R.
    assert (X : mb = None /\ b_remote b0 = og_remote o /\ b_disabled b0 = negb (bp_verify (og_params o)) /\
       (signed_payload o (b_size b0)) /\ (bp_verify (og_params o) = true -> b_payload_verified b0 = true)).
    { destruct (bp_verify (og_params o)) eqn:V.
      - destruct (bp_trust_env (og_params o) || og_excl o) eqn:T; [|discriminate].
        destruct (cm_verify_fd _ _ _) eqn:CV; [|discriminate]. apply Ok_inj in Hb. injection Hb as <- <-. cbn.
        split; [reflexivity|]. split; [reflexivity|]. split; [reflexivity|]. split; [|reflexivity].
        exists sig. split; [exact BS|]. split; [exact R|]. intros _. split; [auto|]. split; [now apply orb_true_iff in T|exact CV].
      - apply Ok_inj in Hb. injection Hb as <- <-. cbn.
        split; [reflexivity|]. split; [reflexivity|]. split; [reflexivity|]. split; [|congruence].
        exists sig. split; [exact BS|]. split; [exact R|]. congruence. }
    destruct X as (-> & X1 & X2 & X3 & X4). apply Ok_inj in Hm. subst m.
    constructor; cbn; auto.
  - assert (X : exists mb', mb = Some mb' /\ b_remote b0 = og_remote o /\ b_disabled b0 = negb (bp_verify (og_params o)) /\
       b_size b0 = size /\ b_payload_verified b0 = false /\
       (bp_verify (og_params o) = true -> cm_verify (og_crypto o) sig = Some mb') /\
       (bp_verify (og_params o) = false -> cm_unverified (og_crypto o) sig = Some mb') /\
       (b_exclusive b0 = true -> og_remote o = false /\ (bp_trust_env (og_params o) = true \/ og_access o = true))).
    { destruct (bp_verify (og_params o)) eqn:V.
      - destruct (cm_verify (og_crypto o) sig) as [mb'|]; [|discriminate]. apply Ok_inj in Hb. injection Hb as <- <-. exists mb'. cbn.
        repeat split; auto; try congruence.
        + apply andb_true_iff in H as [H _]. now apply negb_true_iff in H.
        + apply andb_true_iff in H as [_ H]. now apply orb_true_iff in H.
      - destruct (cm_unverified (og_crypto o) sig) as [mb'|]; [|discriminate]. apply Ok_inj in Hb. injection Hb as <- <-. exists mb'. cbn.
        repeat split; auto; congruence. }
    destruct X as (mb' & -> & X1 & X2 & X3 & X4 & X5 & X6 & X7).
    apply bind_ok in Hm as (m' & Hl & Hm). destruct (bformat_eqb (mf_format m') F_PLAIN) eqn:F; [discriminate|].
    apply Ok_inj in Hm. subst m.
    constructor; cbn; auto. right. exists m', (mf_images m').
    assert (NF : mf_format m' <> F_PLAIN) by (intros E; now rewrite E in F).
    repeat split; auto.
    + now destruct m'.
    + exists sig, mb'. rewrite X3. repeat split; auto.
    + cbn in FA. destruct (mf_format m'); auto; congruence.
    + now apply X7.
    + now apply X7.
    + congruence.
    + congruence.
    + congruence.
Qed.

Lemma ext_fields rauc m l m' : check_external rauc (with_images m l) = Ok m' ->
  (exists l', m' = with_images m l') /\ mf_format m <> F_PLAIN /\
  (exists h s, mf_verity_hash m = Some h /\ hex64 h /\ mf_verity_salt m = Some s /\ hex64 s) /\
  mf_verity_size m <> 0%N /\ (mf_verity_size m mod 4096 = 0)%N /\
  (mf_format m = F_CRYPT -> exists k, mf_crypt_key m = Some k /\ hex64 k).
Proof.
  intros H. apply c33_external_ok in H as (E & _ & _ & _ & F & V & S1 & S2 & K). repeat split; auto.
  exists (mf_images m'). exact E.
Qed.

Lemma check_payload_inv o f b b' : binv o b -> check_payload (og_crypto o) (og_conf o) f b = Ok b' ->
  binv o b' /\ (b_disabled b' = false -> b_payload_verified b' = true) /\ b_size b' = b_size b.
Proof.
  intros I H. unfold check_payload in H. destruct (b_disabled b || b_payload_verified b) eqn:D.
  { apply Ok_inj in H. subst b'. split; [exact I|]. split; [|reflexivity]. apply orb_true_iff in D as [D|D]; congruence. }
  apply orb_false_iff in D as [D1 D2].
  destruct (b_remote b) eqn:R; [discriminate|]. destruct (b_exclusive b) eqn:X; [|discriminate]. cbn [negb] in H.
  destruct I as [I1 I2 I3]. rewrite D1 in I2. symmetry in I2. apply negb_false_iff in I2.
  destruct I3 as [(I3 & I4 & I5 & I6)|(m & l & I3 & I4 & I5 & I6 & I7 & I8)]; [rewrite (I6 I2) in D2; discriminate|].
  rewrite I3 in H. apply bind_ok in H as (m' & Hm & H). apply ext_fields in Hm as ([l' ->] & F & (h & s & V1 & V2 & V3 & V4) & S1 & S2 & _).
  cbn [mf_verity_hash mf_verity_salt with_images] in H. rewrite V1, V3 in H.
  destruct (negb _) in H; [discriminate|]. destruct (Z.ltb_spec (data_size b (with_images m l')) 0) as [|L]; [discriminate|].
  destruct (cm_verity _ _ _ _ _) eqn:CV; [|discriminate]. apply Ok_inj in H. subst b'. cbn [b_disabled b_payload_verified b_size with_payload with_manifest].
  split; [|split; auto]. constructor; cbn; [congruence|now rewrite D1, I2|]. right. exists m, l'. repeat split; auto; try (now apply I7).
  exists f, h, s, (data_size b (with_images m l')). split; [|split; [exact L|exact CV]].
  unfold verity_fields. repeat split; auto; apply V2 || apply V4.
Qed.

Lemma mount_inv o f ok b b' e : binv o b -> mount_bundle (og_crypto o) (og_conf o) f ok b = Ok (b', e) ->
  binv o b' /\ authentic o e.
Proof.
  intros I H. unfold mount_bundle in H. destruct (b_mounted b); [discriminate|].
  destruct (negb (b_sig_verified b || b_disabled b)); [discriminate|]. destruct ok; [|discriminate]. cbn [negb] in H.
  destruct I as [I1 I2 I3].
  destruct I3 as [(I3 & I4 & I5 & I6)|(m & l & I3 & I4 & I5 & I6 & I7 & I8)].
  - destruct I3 as [I3|(m & I3 & IF)]; rewrite I3 in H; [|rewrite IF in H; discriminate].
    destruct (negb (b_payload_verified b || b_disabled b)); [discriminate|].
    apply bind_ok in H as (m & _ & H). apply bind_ok in H as (m' & Hm & H).
    destruct (bformat_eqb (mf_format m') F_PLAIN) eqn:F; [|discriminate]. cbn [negb] in H. apply Ok_inj in H. injection H as <- <-.
    split; [|exact (conj I4 I5)]. constructor; cbn; auto. left. repeat split; auto. right. exists m'. split; [reflexivity|].
    now destruct (mf_format m').
  - rewrite I3 in H. cbn [mf_format with_images] in H. destruct (mf_format m) eqn:F; [congruence| |].
    + apply bind_ok in H as (m' & Hm & H). apply ext_fields in Hm as ([l' ->] & _ & (h & s & V1 & V2 & V3 & V4) & S1 & S2 & _).
      cbn [mf_verity_hash mf_verity_salt with_images] in H. rewrite V1, V3 in H. apply Ok_inj in H. injection H as <- <-.
      split.
      * constructor; cbn; auto. right. exists m, l'. rewrite F. repeat split; auto; try (now apply I7); now apply I8.
      * exists (b_size b), m. unfold verity_fields. rewrite F. repeat split; auto; apply V2 || apply V4.
    + apply bind_ok in H as (m' & Hm & H). apply ext_fields in Hm as ([l' ->] & _ & (h & s & V1 & V2 & V3 & V4) & S1 & S2 & K).
      destruct (K F) as (k & K1 & K2).
      cbn [mf_verity_hash mf_verity_salt mf_crypt_key with_images] in H. rewrite V1, V3, K1 in H. apply Ok_inj in H. injection H as <- <-.
      split.
      * constructor; cbn; auto. right. exists m, l'. rewrite F. repeat split; auto; try (now apply I7); now apply I8.
      * exists (b_size b), m. unfold verity_fields. rewrite F. repeat split; auto; apply V2 || apply V4 || apply K2.
Qed.

Lemma extract_inv o f ok b b' e : binv o b -> extract_bundle (og_crypto o) (og_conf o) f ok b = Ok (b', e) ->
  binv o b' /\ authentic o e.
Proof.
  intros I H. unfold extract_bundle in H. apply bind_ok in H as (b1 & H1 & H).
  destruct (check_payload_inv _ _ _ _ I H1) as (J & P & _). destruct (b_remote b1); [discriminate|].
  destruct ok; [|discriminate]. apply Ok_inj in H. injection H as <- <-. split; [exact J|].
  destruct J as [J1 J2 J3]. destruct J3 as [(I3 & I4 & I5 & I6)|(m & l & I3 & I4 & I5 & I6 & I7 & I8)].
  - left. auto.
  - right. exists m. split; [exact I5|]. split; [exact I6|]. split; [exact I4|]. intros V. apply I8; [exact V|].
    apply P. rewrite J2, V. reflexivity.
Qed.

Lemma with_manifest_binv o b : binv o b -> binv o (with_manifest b (b_manifest b) false).
Proof. intros [I1 I2 I3]. constructor; auto. Qed.

Lemma run_ops_authentic o ops : forall b, binv o b ->
  Forall (authentic o) (run_ops (og_crypto o) (og_conf o) b ops).
Proof.
  induction ops as [|op ops IH]; intros b I; [constructor|]. cbn [run_ops]. destruct op as [f|f ok|f ok|].
  - destruct (check_payload _ _ _ _) as [b'| |] eqn:E; [|auto|constructor]. apply IH. now apply (check_payload_inv _ _ _ _ I E).
  - destruct (mount_bundle _ _ _ _ _) as [[b' e]| |] eqn:E; [|auto|constructor].
    destruct (mount_inv _ _ _ _ _ _ I E). constructor; auto.
  - destruct (extract_bundle _ _ _ _ _) as [[b' e]| |] eqn:E; [|auto|constructor].
    destruct (extract_inv _ _ _ _ _ _ I E). constructor; auto.
  - destruct (b_mounted b); [|constructor]. apply IH. now apply with_manifest_binv.
Qed.

Lemma c36_ok : forall o b ops, og_check o = Ok b ->
  Forall (authentic o) (run_ops (og_crypto o) (og_conf o) b ops).
Proof. intros o b ops H. apply run_ops_authentic. now apply check_bundle_inv. Qed.

(** nothing is ever mounted or unpacked from a bundle that was not checked *)
Lemma c36_unchecked_ok : forall cr cf remote ops, run_ops cr cf (new_bundle remote) ops = [].
Proof.
  intros cr cf remote. induction ops as [|op ops IH]; [reflexivity|]. destruct op as [f|f ok|f ok|]; cbn.
  - destruct remote; [exact IH|exact IH].
  - reflexivity.
  - destruct remote; [exact IH|exact IH].
  - reflexivity.
Qed.


(** ** Examples: a toy CMS.  A signature is one tag byte followed by the signed content (or
    a check value for the payload) *)
Definition ex_hex : string := "e3b0c44298fc1c149afbf4c8996fb92427ae41e4649b934ca495991b7852b855".
Definition ex_manifest (f : bformat) (vsize : N) : manifest :=
  mkManifest (Some "sys") None None None None f true (Some ex_hex) (Some ex_hex) vsize
    (match f with F_CRYPT => Some ex_hex | _ => None end) None None None false [] [].
Definition tag_of (s : bytes) : ascii := hd "x"%char s.
Definition toy : crypto := mkCrypto
  (fun s => Some (Ascii.eqb (tag_of s) "D"))                 (* detached *)
  (fun _ => false) (fun _ => None)
  (fun s => if Ascii.eqb (tag_of s) "x" then None else Some s)   (* "x": not from us *)
  (fun p s => match s with [_; c] => Ascii.eqb c (hd "0"%char p) | _ => false end)
  (fun s => Some s)
  (fun s => if Ascii.eqb (tag_of s) "V" then Ok (ex_manifest F_VERITY 4096)
            else if Ascii.eqb (tag_of s) "C" then Ok (ex_manifest F_CRYPT 4096) else Err)
  (fun _ => Ok (mkManifest (Some "sys") None None None None F_PLAIN true None None 0 None None None None false [] []))
  (fun p _ _ _ => Ascii.eqb (hd "0"%char p) "p").
Definition ex_cf : bconf := mkBconf true false (fun _ => true) 65536 "1.14".
Definition ex_pr : bparams := mkBparams true false.
Definition ex_file (n : nat) (sig : bytes) : bytes := append_signature (repeat "p"%char n) sig.
Definition ex_origin (remote : bool) (n : nat) (sig : bytes) : origin :=
  mkOrigin toy ex_cf ex_pr remote (ex_file n sig) true true.

(** a correctly signed local verity bundle whose size is no multiple of 4096 ends the
    process when its payload is checked (rauc info, extract ...) instead of being refused *)
Lemma c36_unaligned_refuted :
  ~ (forall o b f, og_check o = Ok b -> check_payload (og_crypto o) (og_conf o) f b <> Abort).
Proof.
  intros H. set (o := ex_origin false 5 ["V"%char]).
  destruct (og_check o) as [b| |] eqn:E; [|now vm_compute in E|now vm_compute in E].
  refine (H o b [] E _). vm_compute in E. apply Ok_inj in E. subst b. vm_compute. reflexivity.
Qed.

(** mounting a plain bundle a second time ends the process *)
Lemma c36_remount_refuted :
  ~ (forall o b f b1 e, og_check o = Ok b -> mount_bundle (og_crypto o) (og_conf o) f true b = Ok (b1, e) ->
     mount_bundle (og_crypto o) (og_conf o) f true (with_manifest b1 (b_manifest b1) false) <> Abort).
Proof.
  intros H. set (o := ex_origin false 5 ["D"%char; "p"%char]).
  destruct (og_check o) as [b| |] eqn:E; [|now vm_compute in E|now vm_compute in E].
  destruct (mount_bundle (og_crypto o) (og_conf o) (og_file o) true b) as [[b1 e]| |] eqn:E1.
  - refine (H o b (og_file o) b1 e E E1 _). vm_compute in E. apply Ok_inj in E. subst b.
    vm_compute in E1. apply Ok_inj in E1. injection E1 as <- <-. vm_compute. reflexivity.
  - vm_compute in E. apply Ok_inj in E. subst b. now vm_compute in E1.
  - vm_compute in E. apply Ok_inj in E. subst b. now vm_compute in E1.
Qed.
