From Verif Require Import Base BaseLemmas Hex HexProofs Crypt CryptSpec.

Local Open Scope list_scope.
Definition SZ := N.to_nat 4096.
Lemma sz_n : N.of_nat SZ = 4096%N. Proof. unfold SZ. now rewrite N2Nat.id. Qed.
Lemma enc_sz : ENC_SEC_SIZE = SZ. Proof. reflexivity. Qed.
Lemma sz_pos : 0 < SZ. Proof. pose proof sz_n. lia. Qed.
Global Opaque SZ ENC_SEC_SIZE.

Lemma le_zero : forall n, le_num n 0 = repeat Ascii.zero n.
Proof. induction n; [reflexivity|]. cbn [le_num repeat]. change (0 mod 256)%N with 0%N. change (0 / 256)%N with 0%N. now rewrite IHn. Qed.

Lemma le_split : forall n m v, (v < 256 ^ N.of_nat n)%N -> le_num (n + m) v = le_bytes n v ++ repeat Ascii.zero m.
Proof.
  induction n as [|n IH]; intros m v H.
  - cbn [Nat.add le_bytes app]. assert (v = 0)%N as -> by (cbn in H; lia). apply le_zero.
  - cbn [Nat.add le_num le_bytes app]. f_equal. apply IH.
    rewrite Nat2N.inj_succ, N.pow_succ_r' in H. apply N.div_lt_upper_bound; lia.
Qed.

Lemma iv_ok : forall i, (i < 2 ^ 52)%N -> iv_plain64 i = dm_iv i.
Proof.
  intros i H. unfold iv_plain64, dm_iv.
  assert ((i * 4096) mod 2 ^ 64 / 512 = 8 * i)%N as ->.
  { rewrite N.mod_small. 2:{ change (2 ^ 64)%N with (2 ^ 52 * 4096)%N. lia. }
    replace (i * 4096)%N with ((8 * i) * 512)%N by lia. apply N.div_mul. lia. }
  change 16 with (8 + 8). rewrite le_split; [reflexivity|].
  change (256 ^ N.of_nat 8)%N with (2 ^ 52 * 4096)%N. lia.
Qed.

Section Loop.
  Variable f : bytes -> bytes -> bytes.
  Variable max : N.

  Lemma loop_end : forall fuel i d, crypt_loop (S fuel) f max [] i d = ([], true).
  Proof. intros. cbn [crypt_loop]. now rewrite firstn_nil. Qed.

  Lemma loop_step : forall fuel s rest i d, List.length s = SZ ->
    (max = 0 \/ d + 4096 <= max)%N ->
    crypt_loop (S fuel) f max (s ++ rest) i d =
    (let (o, r) := crypt_loop fuel f max rest (i + 1) (d + 4096) in (f (iv_plain64 i) s ++ o, r)).
  Proof.
    intros fuel s rest i d Hs Hm. cbn [crypt_loop]. rewrite enc_sz.
    rewrite firstn_app, firstn_all2 by lia. rewrite Hs, Nat.sub_diag. cbn [firstn]. rewrite app_nil_r.
    rewrite skipn_app, skipn_all2 by lia. rewrite Hs, Nat.sub_diag. cbn [skipn app].
    rewrite sz_n, Nat.ltb_irrefl.
    assert (negb (max =? 0)%N && (max <? d + 4096)%N = false) as ->.
    { destruct Hm as [->|Hm]; [reflexivity|]. apply andb_false_iff. right. apply N.ltb_ge. lia. }
    destruct s as [|c s]; [pose proof sz_pos; cbn in Hs; lia|]. reflexivity.
  Qed.

  Lemma loop_stop : forall fuel data i d, SZ <= List.length data -> (max <> 0)%N -> (max < d + 4096)%N ->
    crypt_loop (S fuel) f max data i d = ([], true).
  Proof.
    intros fuel data i d Hl Hm Hd. cbn [crypt_loop]. rewrite enc_sz.
    assert (List.length (firstn SZ data) = SZ) as L by (rewrite firstn_length; lia).
    rewrite L, Nat.ltb_irrefl, sz_n.
    assert (negb (max =? 0)%N && (max <? d + 4096)%N = true) as ->.
    { apply andb_true_iff. split; [apply negb_true_iff, N.eqb_neq; exact Hm|apply N.ltb_lt; lia]. }
    destruct (firstn SZ data); reflexivity.
  Qed.

  Lemma loop_short : forall fuel data i d, 0 < List.length data < SZ ->
    crypt_loop (S fuel) f max data i d = ([], false).
  Proof.
    intros fuel data i d Hl. cbn [crypt_loop]. rewrite enc_sz. rewrite firstn_all2 by lia.
    destruct data as [|c data]; [cbn in Hl; lia|].
    assert ((List.length (c :: data) <? SZ)%nat = true) as -> by (apply Nat.ltb_lt; lia). reflexivity.
  Qed.

  Lemma loop_sectors : forall (secs : list bytes) fuel (rest : bytes) i d, sectors secs -> (List.length secs <= fuel)%nat ->
    (max = 0 \/ d + 4096 * N.of_nat (List.length secs) <= max)%N ->
    (i + N.of_nat (List.length secs) <= 2 ^ 52)%N ->
    crypt_loop fuel f max (List.concat secs ++ rest) i d =
    (let (o, r) := crypt_loop (fuel - List.length secs) f max rest (i + N.of_nat (List.length secs))
                     (d + 4096 * N.of_nat (List.length secs)) in (each_sector f i secs ++ o, r)).
  Proof.
    intros secs fuel rest. revert fuel.
    induction secs as [|s secs IH]; intros fuel i d Hs Hf Hm Hi.
    - cbn [List.concat app List.length each_sector]. rewrite Nat.sub_0_r. cbn [N.of_nat].
      rewrite N.add_0_r, N.mul_0_r, N.add_0_r. destruct (crypt_loop _ _ _ _ _ _); reflexivity.
    - inversion Hs as [|? ? H1 H2]; subst.
      destruct fuel as [|fuel]; [cbn in Hf; lia|].
      cbn [List.length] in *. cbn [List.concat each_sector]. rewrite <- app_assoc.
      rewrite loop_step; [|exact H1|destruct Hm; [left; auto|right; lia]].
      rewrite IH; [|exact H2|lia|destruct Hm; [left; auto|right; lia]|lia].
      cbn [Nat.sub].
      replace (i + 1 + N.of_nat (List.length secs))%N with (i + N.of_nat (S (List.length secs)))%N by lia.
      replace (d + 4096 + 4096 * N.of_nat (List.length secs))%N with (d + 4096 * N.of_nat (S (List.length secs)))%N by lia.
      destruct (crypt_loop _ _ _ rest _ _) as [o r]. rewrite iv_ok by lia. now rewrite app_assoc.
  Qed.
End Loop.

Lemma concat_len : forall secs : list bytes, sectors secs -> List.length (List.concat secs) = List.length secs * SZ.
Proof.
  induction secs as [|s secs IH]; intros H; [reflexivity|].
  inversion H as [|? ? H1 H2]; subst. cbn. rewrite app_length, IH by auto.
  change (N.to_nat 4096) with SZ in H1. lia.
Qed.

Lemma secs_le : forall (secs : list bytes) (rest : bytes), sectors secs -> (List.length secs <= List.length (List.concat secs ++ rest))%nat.
Proof.
  intros secs rest H. rewrite app_length, concat_len by auto. pose proof sz_pos. nia.
Qed.

Lemma run_sectors : forall f (secs : list bytes), sectors secs -> (N.of_nat (List.length secs) <= 2 ^ 52)%N ->
  encrypt_or_decrypt f 0 (List.concat secs) = (each_sector f 0 secs, true).
Proof.
  intros f secs H Hn. unfold encrypt_or_decrypt.
  rewrite <- (app_nil_r (List.concat secs)) at 2.
  rewrite loop_sectors; auto.
  2:{ pose proof (secs_le secs [] H) as Q. rewrite app_nil_r in Q. lia. }
  replace (S (List.length (List.concat secs)) - List.length secs) with (S (List.length (List.concat secs) - List.length secs)).
  2:{ pose proof (secs_le secs [] H) as Q. rewrite app_nil_r in Q. lia. }
  rewrite loop_end. now rewrite app_nil_r.
Qed.

Lemma run_limited : forall f (secs : list bytes) (tail : bytes), sectors secs -> (N.of_nat (List.length secs) <= 2 ^ 52)%N ->
  secs <> [] -> SZ <= List.length tail ->
  encrypt_or_decrypt f (4096 * N.of_nat (List.length secs)) (List.concat secs ++ tail) = (each_sector f 0 secs, true).
Proof.
  intros f secs tail H Hn Hne Ht. unfold encrypt_or_decrypt.
  rewrite loop_sectors; auto; [|pose proof (secs_le secs tail H); lia|lia].
  replace (S (List.length (List.concat secs ++ tail)) - List.length secs) with (S (List.length (List.concat secs ++ tail) - List.length secs)).
  2:{ pose proof (secs_le secs tail H). lia. }
  rewrite loop_stop; auto; [now rewrite app_nil_r|destruct secs; [congruence|cbn [List.length]; lia]|lia].
Qed.

Lemma cut_sectors : forall n (data : bytes), List.length data = n * SZ -> exists secs : list bytes, data = List.concat secs /\ sectors secs.
Proof.
  induction n as [|n IH]; intros data H.
  - exists []. split; [destruct data; [reflexivity|discriminate]|constructor].
  - destruct (IH (skipn SZ data)) as (secs & S1 & S2).
    { rewrite skipn_length. lia. }
    exists (firstn SZ data :: secs). split.
    + cbn. rewrite <- S1. now rewrite firstn_skipn.
    + constructor; [|exact S2]. change (N.to_nat 4096) with SZ. rewrite firstn_length. lia.
Qed.

Lemma run_odd : forall f (data : bytes), (N.of_nat (List.length data) <= 2 ^ 64)%N ->
  (N.of_nat (List.length data) mod 4096 <> 0)%N -> snd (encrypt_or_decrypt f 0 data) = false.
Proof.
  intros f data Hb Hm.
  set (q := (List.length data / SZ)%nat). set (r := (List.length data mod SZ)%nat).
  pose proof sz_pos as Hp.
  assert (List.length data = SZ * q + r) as E by (apply Nat.div_mod; lia).
  assert (r < SZ) as Hr by (apply Nat.mod_upper_bound; lia).
  assert (r <> 0) as Hr0.
  { intros Q. apply Hm. rewrite E, Q, Nat.add_0_r, Nat2N.inj_mul, sz_n.
    rewrite N.mul_comm. apply N.mod_mul. lia. }
  destruct (cut_sectors q (firstn (q * SZ) data)) as (secs & S1 & S2).
  { rewrite firstn_length. lia. }
  assert (List.length secs = q) as Lq.
  { pose proof (concat_len secs S2) as Q. rewrite <- S1, firstn_length in Q. clearbody q r.
    rewrite Nat.min_l in Q by (clear - E; nia). 
    assert (SZ <> 0) as Hz by lia. symmetry. exact (proj1 (Nat.mul_cancel_r _ _ SZ Hz) Q). }
  clearbody q r.
  assert (q <= List.length data) as Hq by (clear - E Hp; nia).
  unfold encrypt_or_decrypt. rewrite <- (firstn_skipn (q * SZ) data) at 2. rewrite S1.
  assert (N.of_nat q * 4096 <= 2 ^ 64)%N as Hq2.
  { rewrite <- sz_n, <- Nat2N.inj_mul. clear - E Hb. nia. }
  change (2 ^ 64)%N with (2 ^ 52 * 4096)%N in Hq2.
  rewrite loop_sectors; [|exact S2|lia|left; reflexivity|rewrite Lq; lia].
  replace (S (List.length data) - List.length secs) with (S (List.length data - List.length secs)) by lia.
  rewrite loop_short; [reflexivity|]. rewrite skipn_length. clear - E Hp Hr Hr0. nia.
Qed.

Lemma run_encdec : forall C k (secs : list bytes) i, good_cipher C -> sectors secs ->
  exists es : list bytes, each_sector (c_enc C k) i secs = List.concat es /\ sectors es /\ List.length es = List.length secs /\
    each_sector (c_dec C k) i es = List.concat secs.
Proof.
  intros C k secs i [G1 G2] H. revert i. induction secs as [|s secs IH]; intros i.
  - exists []. repeat split; constructor.
  - inversion H as [|? ? H1 H2]; subst. destruct (IH H2 (i + 1)%N) as (es & E1 & E2 & E3 & E4).
    exists (c_enc C k (dm_iv i) s :: es). cbn. rewrite E1, E3, E4. repeat split.
    + constructor; auto.
    + now rewrite G2.
Qed.

(** ** Results *)
Lemma layout_ok : forall C key fs inp out (secs : list bytes),
  fs inp = Some (List.concat secs) -> sectors secs -> (N.of_nat (List.length secs) <= 2 ^ 52)%N ->
  exists fs', crypt_file (c_enc C key) 0 no_io_errors true fs inp out = (fs', true) /\
    fs' out = Some (each_sector (c_enc C key) 0 secs) /\
    forall q, q <> out -> fs' q = fs q.
Proof.
  intros C key fs inp out secs H1 H2 H3. unfold crypt_file. rewrite H1. cbn [negb cut io_readable io_room no_io_errors].
  rewrite run_sectors by auto. eexists. split; [reflexivity|]. unfold fset. split; [now rewrite String.eqb_refl|].
  intros q Hq. apply String.eqb_neq in Hq. now rewrite Hq.
Qed.

Lemma odd_size_ok : forall C key fs inp out (data : bytes) env can,
  fs inp = Some data -> (N.of_nat (List.length data) <= 2 ^ 64)%N ->
  (N.of_nat (List.length data) mod 4096 <> 0)%N -> io_readable env = None ->
  snd (crypt_file (c_enc C key) 0 env can fs inp out) = false.
Proof.
  intros C key fs inp out data env can H1 H2 H3 H4. unfold crypt_file. rewrite H1.
  destruct can; [|reflexivity]. cbn [negb]. rewrite H4. cbn [cut].
  pose proof (run_odd (c_enc C key) data H2 H3) as Q.
  destruct (encrypt_or_decrypt _ _ _) as [o r]. exact Q.
Qed.

Lemma seqb_neq : forall a b : string, a <> b -> String.eqb a b = false.
Proof. intros a b H. now apply String.eqb_neq. Qed.

Lemma encrypt_bundle_ok : forall C key env can ren tmp path fs (secs : list bytes) fs' r,
  fs path = Some (List.concat secs) -> sectors secs -> (N.of_nat (List.length secs) <= 2 ^ 52)%N ->
  tmp <> path -> key <> [] -> io_readable env = None ->
  encrypt_bundle_payload C key env can ren tmp path fs = (fs', r) ->
  fs' tmp = None /\
  (forall q, q <> tmp -> q <> path -> fs' q = fs q) /\
  match r with
  | Ok hex => hex_decode hex (List.length key) = Some key /\
              (io_room env = None -> fs' path = Some (each_sector (c_enc C key) 0 secs))
  | Err => fs' path = fs path
  | Abort => False
  end.
Proof.
  intros C key env can ren tmp path fs secs fs' r H1 H2 H3 H4 H5 H6 H.
  unfold encrypt_bundle_payload in H.
  destruct (crypt_file (c_enc C key) 0 env can fs path tmp) as [fs1 b] eqn:E.
  unfold crypt_file in E. rewrite H1 in E.
  destruct (c16_round_ok key H5) as (hex & X1 & _ & _ & X2).
  assert (tmp <> path /\ path <> tmp) as [Hn1 Hn2] by auto.
  destruct can; cbn [negb] in E.
  - rewrite H6 in E. cbn [cut] in E. rewrite run_sectors in E by auto.
    assert (fs1 = fset fs tmp (Some (cut (io_room env) (each_sector (c_enc C key) 0 secs)))) as -> by congruence.
    assert (b = true) as -> by congruence. cbn [negb] in H. rewrite X1 in H.
    destruct ren.
    + assert (r = Ok hex) as -> by congruence.
      assert (fs' = fset (fset (fset fs tmp (Some (cut (io_room env) (each_sector (c_enc C key) 0 secs)))) path
         (fset fs tmp (Some (cut (io_room env) (each_sector (c_enc C key) 0 secs))) tmp)) tmp None) as -> by congruence.
      unfold fset. rewrite !String.eqb_refl, !(seqb_neq _ _ Hn2).
      split; [reflexivity|]. split.
      * intros q Q1 Q2. now rewrite !(seqb_neq _ _ Q1), !(seqb_neq _ _ Q2).
      * split; [exact X2|]. intros ->. reflexivity.
    + assert (r = Err) as -> by congruence.
      assert (fs' = fset (fset fs tmp (Some (cut (io_room env) (each_sector (c_enc C key) 0 secs)))) tmp None) as -> by congruence.
      unfold fset. rewrite !String.eqb_refl, !(seqb_neq _ _ Hn2). split; [reflexivity|]. split; [|reflexivity].
      intros q Q1 Q2. now rewrite !(seqb_neq _ _ Q1).
  - assert (fs1 = fs) as -> by congruence. assert (b = false) as -> by congruence. cbn [negb] in H.
    assert (r = Err) as -> by congruence. assert (fs' = fset fs tmp None) as -> by congruence.
    unfold fset. rewrite (seqb_neq _ _ Hn2), String.eqb_refl. split; [reflexivity|]. split; [|reflexivity].
    intros q Q1 Q2. now rewrite (seqb_neq _ _ Q1).
Qed.

Lemma round_trip_ok : forall C key env tmp path fs (secs : list bytes) fs1 hex fs2 tmpdir (tail : bytes) fs3 r,
  good_cipher C -> List.length key = 32%nat ->
  fs path = Some (List.concat secs) -> sectors secs -> secs <> [] -> (N.of_nat (List.length secs) <= 2 ^ 52)%N ->
  tmp <> path -> env = no_io_errors ->
  encrypt_bundle_payload C key env true true tmp path fs = (fs1, Ok hex) ->
  (* the hash tree, the signature and its size are appended *)
  fs2 path = option_map (fun b => b ++ tail) (fs1 path) ->
  (4096 <= N.of_nat (List.length tail))%N ->
  forall verity_size,
  decrypt_bundle_payload C hex no_io_errors true tmpdir path
    (N.of_nat (List.length (List.concat secs)) + verity_size) verity_size fs2 = (fs3, r) ->
  r = Ok (List.concat secs).
Proof.
  intros C key env tmp path fs secs fs1 hex fs2 tmpdir tail fs3 r HC Hk H1 H2 H3 H4 H5 -> He H6 H7 vs Hd.
  assert (key <> []) as Hkn by (destruct key; [discriminate|congruence]).
  destruct (encrypt_bundle_ok C key no_io_errors true true tmp path fs secs fs1 (Ok hex) H1 H2 H4 H5 Hkn eq_refl He) as (_ & _ & Q1 & Q2).
  specialize (Q2 eq_refl). rewrite Q2 in H6. cbn [option_map] in H6. rewrite Hk in Q1.
  destruct (run_encdec C key secs 0 HC H2) as (es & E1 & E2 & E3 & E4).
  unfold decrypt_bundle_payload in Hd. rewrite Q1 in Hd.
  unfold crypt_file in Hd. rewrite H6, E1 in Hd. cbn [negb cut io_readable io_room no_io_errors] in Hd.
  assert ((N.of_nat (List.length (List.concat secs)) + vs - vs)%N = (4096 * N.of_nat (List.length es))%N) as Ez.
  { rewrite E3, concat_len by auto. rewrite Nat2N.inj_mul, sz_n. lia. }
  rewrite Ez in Hd. rewrite run_limited in Hd; auto.
  - cbn [negb] in Hd. unfold fset at 1 in Hd. rewrite String.eqb_refl in Hd.
    assert (r = Ok (each_sector (c_dec C key) 0 es)) as -> by congruence. now rewrite E4.
  - now rewrite E3.
  - intros ->. destruct secs; [congruence|discriminate].
  - pose proof sz_n. lia.
Qed.

(** a sector of [c]s *)
Definition sec (c : ascii) : bytes := repeat c (N.to_nat 4096).
Lemma sec_len : forall c, List.length (sec c) = N.to_nat 4096.
Proof. intros c. apply repeat_length. Qed.

(** the identity "cipher": whatever the cipher, the file handling is the same *)
Definition idc : cipher_pair := mkCipher (fun _ _ s => s) (fun _ _ s => s).
Lemma idc_good : good_cipher idc.
Proof. split; [intros k iv s H; exact H|reflexivity]. Qed.

Definition key32 : bytes := repeat "k"%char 32.
Definition one (p : string) (b : bytes) : files := fun q => if String.eqb q p then Some b else None.

Lemma secs2 : sectors [sec "a"; sec "b"]%char.
Proof. constructor; [apply sec_len|]. constructor; [apply sec_len|constructor]. Qed.

(** full file system while encrypting: reported as success, with half the payload *)
Lemma room_refuted :
  exists C key env fs path tmp secs fs' hex,
    good_cipher C /\ List.length key = 32%nat /\ sectors secs /\ tmp <> path /\
    io_readable env = None /\ io_room env = Some 4096%N /\
    fs path = Some (List.concat secs) /\ List.length secs = 2%nat /\
    encrypt_bundle_payload C key env true true tmp path fs = (fs', Ok hex) /\
    exists b, fs' path = Some b /\ List.length b = N.to_nat 4096.
Proof.
  exists idc, key32, (mkIo None (Some 4096%N)), (one "b" (List.concat [sec "a"; sec "b"]%char)), "b", "t", [sec "a"; sec "b"]%char.
  eexists. eexists.
  split; [exact idc_good|]. split; [reflexivity|]. split; [exact secs2|]. split; [discriminate|].
  split; [reflexivity|]. split; [reflexivity|]. split; [reflexivity|]. split; [reflexivity|].
  split.
  - unfold encrypt_bundle_payload, crypt_file.
    change (one "b" (List.concat [sec "a"; sec "b"]%char) "b") with (Some (List.concat [sec "a"; sec "b"]%char)).
    cbn [negb cut io_readable io_room]. rewrite run_sectors by (exact secs2 || (cbn; lia)). cbn [negb].
    reflexivity.
  - eexists. unfold fset. cbn [String.eqb Ascii.eqb Bool.eqb]. split; [reflexivity|].
    rewrite firstn_length. cbn [each_sector app]. rewrite app_nil_r, app_length.
    cbn [c_enc idc]. rewrite !sec_len. lia.
Qed.

(** a read error at a sector boundary is taken for the end of the file *)
Lemma read_refuted :
  exists C key env fs path tmp secs fs' hex,
    good_cipher C /\ List.length key = 32%nat /\ sectors secs /\ tmp <> path /\
    io_readable env = Some 4096%N /\ io_room env = None /\
    fs path = Some (List.concat secs) /\ List.length secs = 2%nat /\
    encrypt_bundle_payload C key env true true tmp path fs = (fs', Ok hex) /\
    exists b, fs' path = Some b /\ List.length b = N.to_nat 4096.
Proof.
  exists idc, key32, (mkIo (Some 4096%N) None), (one "b" (List.concat [sec "a"; sec "b"]%char)), "b", "t", [sec "a"; sec "b"]%char.
  eexists. eexists.
  split; [exact idc_good|]. split; [reflexivity|]. split; [exact secs2|]. split; [discriminate|].
  split; [reflexivity|]. split; [reflexivity|]. split; [reflexivity|]. split; [reflexivity|].
  split.
  - unfold encrypt_bundle_payload, crypt_file.
    change (one "b" (List.concat [sec "a"; sec "b"]%char) "b") with (Some (List.concat [sec "a"; sec "b"]%char)).
    cbn [negb cut io_readable io_room].
    assert (firstn (N.to_nat 4096) (List.concat [sec "a"; sec "b"]%char) = List.concat [sec "a"%char]) as ->.
    { cbn [List.concat]. rewrite firstn_app, sec_len, Nat.sub_diag. rewrite firstn_all2 by (rewrite sec_len; lia). reflexivity. }
    rewrite run_sectors by ((constructor; [apply sec_len|constructor]) || (cbn; lia)). cbn [negb].
    reflexivity.
  - eexists. unfold fset. cbn [String.eqb Ascii.eqb Bool.eqb]. split; [reflexivity|].
    cbn [each_sector app]. rewrite app_nil_r. apply sec_len.
Qed.

(** the decrypted bundle is written next to the temporary directory, not into it, and
    stays there in plain text when that directory is removed *)
Lemma plaintext_ok : forall C hex env can tmpdir path size vs fs fs' b,
  path <> (tmpdir ++ "decrypted.raucb")%string ->
  decrypt_bundle_payload C hex env can tmpdir path size vs fs = (fs', Ok b) ->
  exists p, p <> path /\ fs' p = Some b.
Proof.
  intros C hex env can tmpdir path size vs fs fs' b Ep H.
  exists (tmpdir ++ "decrypted.raucb")%string.
  unfold decrypt_bundle_payload in H.
  destruct (hex_decode hex 32) as [k|]; [|congruence].
  destruct (crypt_file _ _ _ _ _ _ _) as [fs1 r].
  assert (has_prefix (tmpdir ++ "/") (tmpdir ++ "decrypted.raucb") = false) as Hp.
  { clear. induction tmpdir as [|c s IH]; [reflexivity|]. cbn [append has_prefix]. now rewrite Ascii.eqb_refl, IH. }
  split; [congruence|].
  destruct r; cbn [negb] in H; [|congruence].
  destruct (fs1 (tmpdir ++ "decrypted.raucb")%string) as [x|] eqn:Ex; [|congruence].
  assert (fs' = rm_tree tmpdir fs1) as -> by congruence. assert (x = b) as -> by congruence.
  unfold rm_tree. now rewrite Hp.
Qed.

Lemma plaintext_refuted :
  exists C hex tmpdir path size vs fs fs' plain p,
    good_cipher C /\ fs p = None /\
    decrypt_bundle_payload C hex no_io_errors true tmpdir path size vs fs = (fs', Ok plain) /\
    List.length plain = N.to_nat 4096 /\ fs' p = Some plain.
Proof.
  exists idc, (hex_chars key32), "/tmp/rauc-ABCDEF", "b", (8192)%N, 4096%N.
  exists (one "b" (List.concat [sec "a"%char] ++ sec "v"%char)). eexists. eexists.
  exists "/tmp/rauc-ABCDEFdecrypted.raucb".
  split; [exact idc_good|]. split; [reflexivity|].
  split.
  - unfold decrypt_bundle_payload.
    change (hex_decode (hex_chars key32) 32) with (Some key32).
    unfold crypt_file.
    change (one "b" (List.concat [sec "a"%char] ++ sec "v"%char) "b") with (Some (List.concat [sec "a"%char] ++ sec "v"%char)).
    cbn [negb cut io_readable io_room no_io_errors].
    change (8192 - 4096)%N with (4096 * N.of_nat (List.length [sec "a"%char]))%N.
    rewrite run_limited.
    + cbn [negb]. reflexivity.
    + constructor; [apply sec_len|constructor].
    + cbn. lia.
    + discriminate.
    + rewrite sec_len. change (N.to_nat 4096) with SZ. lia.
  - cbn [each_sector app]. split; [rewrite app_nil_r; apply sec_len|]. reflexivity.
Qed.

(** less than a sector after the payload: decryption fails in spite of the limit *)
Lemma short_tail_refuted :
  exists C hex tmpdir path size vs fs secs tail,
    good_cipher C /\ sectors secs /\ fs path = Some (List.concat secs ++ tail) /\
    (size - vs = N.of_nat (List.length (List.concat secs)))%N /\
    snd (decrypt_bundle_payload C hex no_io_errors true tmpdir path size vs fs) = Err.
Proof.
  exists idc, (hex_chars key32), "/tmp/rauc-ABCDEF", "b", 4096%N, 0%N.
  exists (one "b" (List.concat [sec "a"%char] ++ ["s"%char])), [sec "a"%char], ["s"%char].
  split; [exact idc_good|]. split; [constructor; [apply sec_len|constructor]|]. split; [reflexivity|].
  split. { cbn [List.concat]. rewrite app_nil_r, sec_len. now rewrite N2Nat.id. }
  unfold decrypt_bundle_payload.
  change (hex_decode (hex_chars key32) 32) with (Some key32).
  unfold crypt_file.
  change (one "b" (List.concat [sec "a"%char] ++ ["s"%char]) "b") with (Some (List.concat [sec "a"%char] ++ ["s"%char])).
  cbn [negb cut io_readable io_room no_io_errors].
  change (4096 - 0)%N with (4096 * N.of_nat (List.length [sec "a"%char]))%N.
  unfold encrypt_or_decrypt. rewrite loop_sectors.
  - set (L := List.length (List.concat [sec "a"%char] ++ ["s"%char])).
    cbn [List.length]. replace (S L - 1) with (S (L - 1)).
    + rewrite loop_short; [reflexivity|]. cbn [List.length]. pose proof sz_n. lia.
    + subst L. rewrite app_length. cbn [List.length]. lia.
  - constructor; [apply sec_len|constructor].
  - cbn [List.length]. lia.
  - right. cbn [List.length]. lia.
  - cbn [List.length]. lia.
Qed.
