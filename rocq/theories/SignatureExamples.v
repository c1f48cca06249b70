(** A concrete world of certificates for the examples of C56: root, intermediate, signer. *)
From Verif Require Import Base BaseLemmas Image KeyFile Hex Semver Manifest Bundle BundleSpec Signature SignatureSpec SignatureProofs.

Definition optb_eqb (a b : option bool) : bool :=
  match a, b with Some x, Some y => Bool.eqb x y | None, None => true | _, _ => false end.
Definition opts_eqb (a b : option string) : bool :=
  match a, b with Some x, Some y => String.eqb x y | None, None => true | _, _ => false end.
Definition cert_eqb (a b : cert) : bool :=
  (ct_id a =? ct_id b)%N && opts_eqb (ct_cn a) (ct_cn b) && optb_eqb (ct_ku a) (ct_ku b) && optb_eqb (ct_eku a) (ct_eku b) &&
  (ct_check_ca a =? ct_check_ca b)%N.
Lemma cert_eqb_eq : forall a b, cert_eqb a b = true <-> a = b.
Proof.
  intros [i c k e n] [i' c' k' e' n']. unfold cert_eqb. cbn. rewrite !andb_true_iff, !N.eqb_eq.
  assert (H1 : forall x y, opts_eqb x y = true <-> x = y).
  { intros [x|] [y|]; cbn; split; intros H; try discriminate; try reflexivity.
    - apply String.eqb_eq in H. congruence.
    - injection H as ->. apply String.eqb_refl. }
  assert (H2 : forall x y, optb_eqb x y = true <-> x = y).
  { intros [[|]|] [[|]|]; cbn; split; intros H; try discriminate; reflexivity. }
  rewrite H1, !H2. split.
  - intros ((((-> & ->) & ->) & ->) & ->). reflexivity.
  - intros H. injection H as -> -> -> -> ->. auto.
Qed.

Definition ex_root := mkCert 1 (Some "Example Root CA") None None 1.
Definition ex_inter := mkCert 2 (Some "Example Intermediate CA") (Some false) (Some true) 1.
Definition ex_leaf := mkCert 3 (Some "Example Release Key") (Some true) (Some true) 0.
(** one which is not meant for code signing *)
Definition ex_dev := mkCert 4 (Some "Example Server") (Some true) (Some false) 0.

Definition ex_pki : pki := mkPki
  (fun a b => (cert_eqb a ex_leaf && cert_eqb b ex_inter) || (cert_eqb a ex_dev && cert_eqb b ex_inter) || (cert_eqb a ex_inter && cert_eqb b ex_root))
  (fun path dir x => opts_eqb path (Some "/etc/rauc/ca.pem") && cert_eqb x ex_root)
  (fun x => cert_eqb x ex_root)
  (fun x t => (100 <=? t)%Z && (t <=? 200)%Z)
  (fun x => false)
  (fun p x ca => true)
  150.

Fixpoint linkedb (P : pki) (ch : list cert) : bool :=
  match ch with
  | a :: (b :: _) as r => p_issued P a b && linkedb P r
  | _ => true
  end.
Lemma linkedb_ok : forall P ch, linkedb P ch = true <-> linked P ch.
Proof.
  intros P ch. induction ch as [|a [|b r] IH].
  - split; [intros _; exact I|reflexivity].
  - split; [intros _; exact I|reflexivity].
  - change (linkedb P (a :: b :: r)) with (p_issued P a b && linkedb P (b :: r)).
    change (linked P (a :: b :: r)) with (p_issued P a b = true /\ linked P (b :: r)).
    rewrite andb_true_iff, IH. reflexivity.
Qed.
Definition chain_okb (P : pki) (st : store) (x : cert) (rest : list cert) : bool :=
  linkedb P (x :: rest) && p_keyring P (st_path st) (st_dir st) (last (x :: rest) x) &&
  (st_partial st || p_self P (last (x :: rest) x)) &&
  (match check_time (st_no_time st) (st_time st) (p_now P) with Some t => forallb (fun y => p_valid P y t) (x :: rest) | None => true end) &&
  (negb (st_crl st) || forallb (fun y => negb (p_revoked P y)) (x :: rest)) &&
  (match st_purpose st with
   | None => true
   | Some p => if String.eqb p "codesign-rauc"
               then negb (check_purpose_code_sign x false =? 0)%N && forallb (fun y => negb (check_purpose_code_sign y true =? 0)%N) rest
               else p_purpose P p x false && forallb (fun y => p_purpose P p y true) rest
   end).

Lemma forallb_Forall : forall A (f : A -> bool) (Q : A -> Prop) l, (forall x, f x = true <-> Q x) -> (forallb f l = true <-> Forall Q l).
Proof.
  intros A f Q l H. rewrite forallb_forall, Forall_forall. split; intros HH x Hx; apply H, HH, Hx.
Qed.

Lemma chain_okb_ok : forall P st x rest, chain_okb P st x rest = true <-> chain_ok P st x rest.
Proof.
  intros P st x rest. unfold chain_okb, chain_ok. rewrite !andb_true_iff. rewrite linkedb_ok.
  assert (Hneg : forall n, negb (n =? 0)%N = true <-> n <> 0%N) by (intros n; rewrite negb_true_iff, N.eqb_neq; reflexivity).
  split.
  - intros (((((Hl & Hk) & Hs) & Ht) & Hc) & Hp). split; [exact Hl|]. split; [exact Hk|]. split.
    { intros E. rewrite E in Hs. exact Hs. }
    split.
    { intros t Et. rewrite Et in Ht. apply (forallb_Forall _ (fun y => p_valid P y t)); [reflexivity|exact Ht]. }
    split.
    { intros E. rewrite E in Hc. cbn [negb orb] in Hc. apply (forallb_Forall _ (fun y => negb (p_revoked P y))); [|exact Hc]. intros y. apply negb_true_iff. }
    split.
    { intros E. rewrite E in Hp. cbn in Hp. apply andb_prop in Hp. destruct Hp as [H1 H2]. split; [apply Hneg, H1|].
      apply (forallb_Forall _ (fun y => negb (check_purpose_code_sign y true =? 0)%N)); [|exact H2]. intros y. apply Hneg. }
    intros p E Hne. rewrite E in Hp. apply String.eqb_neq in Hne. rewrite Hne in Hp. apply andb_prop in Hp. destruct Hp as [H1 H2].
    split; [exact H1|]. apply (forallb_Forall _ (fun y => p_purpose P p y true)); [reflexivity|exact H2].
  - intros (Hl & Hk & Hs & Ht & Hc & Hcs & Hbp). repeat split; try assumption.
    + destruct (st_partial st); [reflexivity|]. apply Hs. reflexivity.
    + destruct (check_time _ _ _) as [t|]; [|reflexivity]. apply (forallb_Forall _ (fun y => p_valid P y t)) with (Q := fun y => p_valid P y t = true); [reflexivity|].
      apply Ht; reflexivity.
    + destruct (st_crl st); [|reflexivity]. cbn [negb orb]. apply (forallb_Forall _ _ (fun y => p_revoked P y = false)); [intros y; apply negb_true_iff|]. apply Hc; reflexivity.
    + destruct (st_purpose st) as [p|]; [|reflexivity]. destruct (String.eqb_spec p "codesign-rauc") as [->|Hne].
      * destruct (Hcs eq_refl) as [H1 H2]. apply andb_true_intro. split; [apply Hneg, H1|].
        apply (forallb_Forall _ _ (fun y => check_purpose_code_sign y true <> 0%N)); [intros y; apply Hneg|exact H2].
      * destruct (Hbp p eq_refl Hne) as [H1 H2]. rewrite H1. apply (forallb_Forall _ _ (fun y => p_purpose P p y true = true)); [reflexivity|exact H2].
Qed.

(** the only possible chain *)
Definition ex_rest (x : cert) : list cert :=
  if cert_eqb x ex_leaf then [ex_inter; ex_root]
  else if cert_eqb x ex_dev then [ex_inter; ex_root]
  else if cert_eqb x ex_inter then [ex_root] else [].
Definition ex_chain (st : store) (x : cert) (certs : list cert) : option (list cert) :=
  if chain_okb ex_pki st x (ex_rest x) then Some (x :: ex_rest x) else None.

(** a CMS structure is written as one byte, its signature is right for the manifest "M" *)
Definition ex_signer := mkSigner 7 (Some ex_leaf) (Some (TimeAt 120)).
Definition ex_other := mkSigner 8 (Some ex_dev) (Some (TimeAt 120)).
Definition ex_manifest : bytes := ["M"%char].
Definition ex_cms := mkCms TSigned (Some ex_manifest) [ex_signer] [ex_leaf; ex_inter].
Definition ex_parse (b : bytes) : option cms :=
  match b with
  | ["I"%char] => Some ex_cms                                                             (* inline *)
  | ["D"%char] => Some (mkCms TSigned None [ex_signer] [ex_leaf; ex_inter])               (* detached *)
  | ["A"%char] => Some (append_signer ex_cms [] ex_dev ex_other)                          (* appended *)
  | ["S"%char] => Some (mkCms TSigned (Some ex_manifest) [ex_other] [ex_dev; ex_inter])   (* by the other one *)
  | ["E"%char] => Some (mkCms TEnveloped (Some ["x"%char]) [] [])
  | _ => None
  end.
Definition ex_ssl : openssl := mkOpenssl
  (fun p d => opts_eqb p (Some "/etc/rauc/ca.pem"))
  (fun s => String.eqb s "smimesign")
  ex_parse ex_chain
  (fun s c => match c with ["M"%char] => true | "P"%char :: _ => true | _ => false end)
  (fun b => match b with ["E"%char] => Some ["I"%char] | _ => None end).

Lemma ex_honest : honest ex_ssl ex_pki.
Proof.
  intros st x certs ch H. cbn in H. unfold ex_chain in H. destruct (chain_okb ex_pki st x (ex_rest x)) eqn:E; [|discriminate].
  injection H as <-. exists (ex_rest x). split; [reflexivity|]. apply chain_okb_ok, E.
Qed.

Lemma ex_linked_rest : forall st x rest, chain_ok ex_pki st x rest -> rest = ex_rest x.
Proof.
  intros st x rest (Hl & Hk & _). unfold ex_rest. cbn [p_keyring ex_pki] in Hk. apply andb_prop in Hk. destruct Hk as [_ Hk]. apply cert_eqb_eq in Hk.
  assert (Hsub : forall a b, p_issued ex_pki a b = true -> (a = ex_leaf /\ b = ex_inter) \/ (a = ex_dev /\ b = ex_inter) \/ (a = ex_inter /\ b = ex_root)).
  { intros a b H. cbn in H. apply orb_prop in H. destruct H as [H|H]; [apply orb_prop in H; destruct H as [H|H]|];
      apply andb_prop in H; destruct H as [H1 H2]; apply cert_eqb_eq in H1, H2; auto. }
  assert (Hroot : forall r, linked ex_pki (ex_root :: r) -> r = []).
  { intros [|b r] H; [reflexivity|]. destruct H as [H _]. apply Hsub in H. destruct H as [[H _]|[[H _]|[H _]]]; discriminate H. }
  assert (Hinter : forall r d, linked ex_pki (ex_inter :: r) -> last (ex_inter :: r) d = ex_root -> r = [ex_root]).
  { intros [|b r] d H Hd; [discriminate Hd|]. destruct H as [H Hr]. apply Hsub in H. destruct H as [[H _]|[[H _]|[_ ->]]]; try discriminate H.
    apply Hroot in Hr. subst. reflexivity. }
  destruct rest as [|b r].
  - cbn in Hk. subst x. reflexivity.
  - destruct Hl as [H Hr]. apply Hsub in H. destruct H as [[-> ->]|[[-> ->]|[-> ->]]].
    + change (last (ex_leaf :: ex_inter :: r) ex_leaf) with (last (ex_inter :: r) ex_leaf) in Hk. rewrite (Hinter _ _ Hr Hk). reflexivity.
    + change (last (ex_dev :: ex_inter :: r) ex_dev) with (last (ex_inter :: r) ex_dev) in Hk. rewrite (Hinter _ _ Hr Hk). reflexivity.
    + rewrite (Hroot _ Hr). reflexivity.
Qed.
Lemma ex_complete : complete ex_ssl ex_pki.
Proof.
  intros st x certs rest H _. cbn. unfold ex_chain. rewrite <- (ex_linked_rest _ _ _ H). apply chain_okb_ok in H. rewrite H. eauto.
Qed.

Definition ex_keyconf (cns : option (list string)) (purpose : option string) : keyconf :=
  mkKeyconf (Some "/etc/rauc/ca.pem") None true false (config_purpose purpose) cns true false.
