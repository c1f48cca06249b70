From Verif Require Import Base BaseLemmas Hex.

(** a hexadecimal digit of either case *)
Definition hex_digit (c : ascii) : bool :=
  let n := N_of_ascii c in
  ((48 <=? n) && (n <=? 57) || (97 <=? n) && (n <=? 102) || (65 <=? n) && (n <=? 70))%N.
Definition lower_hex_digit (c : ascii) : bool :=
  let n := N_of_ascii c in ((48 <=? n) && (n <=? 57) || (97 <=? n) && (n <=? 102))%N.

Lemma digit_val_hex c : hex_digit c = match digit_val c with Some _ => true | None => false end.
Proof. destruct c as [[] [] [] [] [] [] [] []]; reflexivity. Qed.

Lemma byte_hex b : 
  match digit_val (digit_char (N.shiftr (N_of_ascii b) 4)), digit_val (digit_char (N.land (N_of_ascii b) 15)) with
  | Some u, Some v => ascii_of_N (N.lor (N.shiftl u 4) v) = b
  | _, _ => False
  end /\
  lower_hex_digit (digit_char (N.shiftr (N_of_ascii b) 4)) = true /\
  lower_hex_digit (digit_char (N.land (N_of_ascii b) 15)) = true.
Proof. destruct b as [[] [] [] [] [] [] [] []]; repeat split; reflexivity. Qed.

Lemma c16_round_ok : forall raw, raw <> [] ->
  exists s, hex_encode raw = Ok s /\ String.length s = 2 * List.length raw /\
    all_chars lower_hex_digit s = true /\ hex_decode s (List.length raw) = Some raw.
Proof.
  intros raw Hne. destruct raw as [|b0 r0] eqn:E; [congruence|]. rewrite <- E. 
  exists (hex_chars raw). split; [subst; reflexivity|]. clear E Hne b0 r0.
  assert (L : String.length (hex_chars raw) = 2 * List.length raw).
  { induction raw as [|b r IH]; [reflexivity|]. cbn [hex_chars String.length List.length]. lia. }
  split; [exact L|]. split.
  - clear L. induction raw as [|b r IH]; [reflexivity|]. cbn [hex_chars all_chars].
    destruct (byte_hex b) as (_ & -> & ->). exact IH.
  - unfold hex_decode. rewrite L. rewrite (Nat.mul_comm 2). rewrite Nat.eqb_refl. clear L.
    induction raw as [|b r IH]; [reflexivity|]. cbn [hex_chars hex_loop].
    destruct (byte_hex b) as (H & _ & _).
    destruct (digit_val (digit_char (N.shiftr (N_of_ascii b) 4))) as [u|]; [|destruct H].
    destruct (digit_val (digit_char (N.land (N_of_ascii b) 15))) as [v|]; [|destruct H].
    rewrite IH, H. reflexivity.
Qed.

Lemma hex_loop_some n : forall s, String.length s = n * 2 ->
  match hex_loop s with
  | Some bs => all_chars hex_digit s = true /\ List.length bs = n
  | None => all_chars hex_digit s = false
  end.
Proof.
  induction n as [|n IH]; intros s Hs.
  - destruct s; [|discriminate]. cbn. auto.
  - destruct s as [|h [|l r]]; try discriminate. cbn [hex_loop all_chars]. rewrite !digit_val_hex.
    assert (Hr : String.length r = n * 2) by (cbn in Hs; lia). specialize (IH r Hr).
    destruct (digit_val h); [|reflexivity]. destruct (digit_val l); [|reflexivity].
    cbn [andb]. destruct (hex_loop r); [|exact IH]. destruct IH. cbn [List.length]. auto.
Qed.

Lemma c16_accept_ok : forall s n,
  (exists raw, hex_decode s n = Some raw) <-> String.length s = 2 * n /\ all_chars hex_digit s = true.
Proof.
  intros s n. unfold hex_decode. destruct (Nat.eqb_spec (String.length s) (n * 2)) as [E|E].
  - pose proof (hex_loop_some n s E) as H. destruct (hex_loop s).
    + split; [intros _; split; [lia|tauto]|eauto].
    + split; [intros [x Hx]; discriminate|]. intros [_ X]. congruence.
  - split; [intros [x Hx]; discriminate|]. intros [X _]. lia.
Qed.

Lemma c16_length_ok : forall s n raw, hex_decode s n = Some raw -> List.length raw = n.
Proof.
  intros s n raw. unfold hex_decode. destruct (Nat.eqb_spec (String.length s) (n * 2)) as [E|E]; [|discriminate].
  intros H. pose proof (hex_loop_some n s E) as H'. rewrite H in H'. tauto.
Qed.

(** the value: each byte is 16 * first digit + second digit *)
Lemma c16_value_ok : forall h l r bs n, hex_decode (String h (String l r)) (S n) = Some bs ->
  exists u v bs', digit_val h = Some u /\ digit_val l = Some v /\ hex_decode r n = Some bs' /\
    bs = ascii_of_N (16 * u + v) :: bs'.
Proof.
  intros h l r bs n. unfold hex_decode.
  destruct (Nat.eqb_spec (String.length (String h (String l r))) (S n * 2)) as [E|E]; [|discriminate].
  cbn in E. assert (Nat.eqb (String.length r) (n * 2) = true) as -> by (apply Nat.eqb_eq; lia).
  cbn [hex_loop]. destruct (digit_val h) as [u|] eqn:Eu; [|discriminate]. destruct (digit_val l) as [v|] eqn:Ev; [|discriminate].
  destruct (hex_loop r) as [bs'|]; [|discriminate]. intros H. apply Some_inj in H. subst bs.
  exists u, v, bs'. repeat split. f_equal. f_equal.
  apply digit_val_lt in Eu, Ev.
  assert (Hu : In u (map N.of_nat (seq 0 16))).
  { replace u with (N.of_nat (N.to_nat u)) by lia. apply in_map. apply in_seq. lia. }
  assert (Hv : In v (map N.of_nat (seq 0 16))).
  { replace v with (N.of_nat (N.to_nat v)) by lia. apply in_map. apply in_seq. lia. }
  clear -Hu Hv. revert u Hu v Hv. 
  assert (F : Forall (fun u => Forall (fun v => N.lor (N.shiftl u 4) v = 16 * u + v)%N (map N.of_nat (seq 0 16))) (map N.of_nat (seq 0 16))).
  { cbn [map seq]. repeat constructor. }
  intros u Hu v Hv. rewrite Forall_forall in F. specialize (F u Hu). rewrite Forall_forall in F. auto.
Qed.
