From Verif Require Import Base Disk.

Lemma lenN_app {A} (a b : list A) : lenN (a ++ b) = (lenN a + lenN b)%N.
Proof. unfold lenN. rewrite app_length. lia. Qed.
Lemma lenN_nil {A} : lenN (@nil A) = 0%N. Proof. reflexivity. Qed.
Lemma lenN_cons {A} (a : A) l : lenN (a :: l) = (1 + lenN l)%N.
Proof. unfold lenN. cbn [List.length]. lia. Qed.
Lemma lenN_firstn {A} n (l : list A) : lenN (firstn n l) = N.min (N.of_nat n) (lenN l).
Proof. unfold lenN. rewrite firstn_length. lia. Qed.
Lemma lenN_skipn {A} n (l : list A) : lenN (skipn n l) = (lenN l - N.of_nat n)%N.
Proof. unfold lenN. rewrite skipn_length. lia. Qed.
Lemma lenN_0 {A} (l : list A) : lenN l = 0%N -> l = [].
Proof. destruct l; [reflexivity|]. unfold lenN. cbn. lia. Qed.

Lemma dread_length d n : forall off, List.length (dread d off n) = n.
Proof. induction n; intros; cbn; [reflexivity|]. now rewrite IHn. Qed.
Lemma dread_lenN d n off : lenN (dread d off n) = N.of_nat n.
Proof. unfold lenN. now rewrite dread_length. Qed.
Lemma dread_nth d n : forall off i x, i < n -> nth i (dread d off n) x = d (off + N.of_nat i)%N.
Proof.
  induction n; intros off i x H; [lia|]. cbn. destruct i.
  - f_equal. lia.
  - rewrite IHn by lia. f_equal. lia.
Qed.
Lemma dread_ext d d' n : forall off, (forall p, (off <= p < off + N.of_nat n)%N -> d p = d' p) -> dread d off n = dread d' off n.
Proof.
  induction n; intros off H; [reflexivity|]. cbn. f_equal; [apply H; lia|]. apply IHn. intros p Hp. apply H. lia.
Qed.
Lemma dread_app d n m : forall off, dread d off (n + m) = dread d off n ++ dread d (off + N.of_nat n)%N m.
Proof.
  induction n; intros off; [cbn; f_equal; lia|]. cbn. f_equal. rewrite IHn. f_equal. f_equal. lia.
Qed.
Lemma dread_eq_iff d off l : dread d off (List.length l) = l <-> (forall i, i < List.length l -> d (off + N.of_nat i)%N = nth i l 0%N).
Proof.
  split.
  - intros H i Hi. transitivity (nth i (dread d off (List.length l)) 0%N); [symmetry; now apply dread_nth|now rewrite H].
  - intros H. apply nth_ext with (d := 0%N) (d' := 0%N); rewrite dread_length; [reflexivity|].
    intros i Hi. rewrite dread_nth by exact Hi. now apply H.
Qed.

Lemma dwrite_in d off l p : (off <= p < off + lenN l)%N -> dwrite d off l p = nth (N.to_nat (p - off)) l 0%N.
Proof. intros H. unfold dwrite. destruct (N.leb_spec off p), (N.ltb_spec p (off + lenN l)); cbn; try lia; reflexivity. Qed.
Lemma dwrite_out d off l p : (p < off \/ off + lenN l <= p)%N -> dwrite d off l p = d p.
Proof. intros H. unfold dwrite. destruct (N.leb_spec off p), (N.ltb_spec p (off + lenN l)); cbn; try lia; reflexivity. Qed.
Lemma dwrite_nil d off p : dwrite d off [] p = d p.
Proof. apply dwrite_out. rewrite lenN_nil. lia. Qed.
Lemma dwrite_ext d d' off l p : d p = d' p -> dwrite d off l p = dwrite d' off l p.
Proof. intros H. unfold dwrite. now rewrite H. Qed.
Lemma dwrite_app d off a b p : dwrite (dwrite d off a) (off + lenN a) b p = dwrite d off (a ++ b) p.
Proof.
  destruct (N.ltb_spec p off).
  { rewrite !dwrite_out by lia. reflexivity. }
  destruct (N.ltb_spec p (off + lenN a)).
  { rewrite dwrite_out by lia. rewrite dwrite_in by lia. rewrite dwrite_in by (rewrite lenN_app; lia).
    rewrite app_nth1; [reflexivity|]. unfold lenN in *. lia. }
  destruct (N.ltb_spec p (off + lenN a + lenN b)).
  { rewrite dwrite_in by lia. rewrite dwrite_in by (rewrite lenN_app; lia).
    rewrite app_nth2 by (unfold lenN in *; lia). f_equal. unfold lenN in *. lia. }
  rewrite !dwrite_out by (rewrite ?lenN_app; lia). reflexivity.
Qed.
Lemma dread_dwrite_same d off l : dread (dwrite d off l) off (List.length l) = l.
Proof.
  apply dread_eq_iff. intros i Hi. rewrite dwrite_in by (unfold lenN; lia). f_equal. lia.
Qed.
Lemma dwrite_same d off l p : dread d off (List.length l) = l -> dwrite d off l p = d p.
Proof.
  intros H. destruct (N.ltb_spec p off); [apply dwrite_out; lia|]. destruct (N.ltb_spec p (off + lenN l)); [|apply dwrite_out; lia].
  rewrite dwrite_in by lia. rewrite dread_eq_iff in H. rewrite <- H by (unfold lenN in *; lia). f_equal. lia.
Qed.

Lemma play_nil d : play d [] = d. Proof. reflexivity. Qed.
Lemma play_cons d e tr : play d (e :: tr) = play (ev_apply d e) tr. Proof. reflexivity. Qed.
Lemma play_app d a b : play d (a ++ b) = play (play d a) b.
Proof. unfold play. now rewrite fold_left_app. Qed.
Lemma play_ext tr : forall d d' p, d p = d' p -> play d tr p = play d' tr p.
Proof.
  induction tr as [|e tr IH]; intros d d' p H; [exact H|]. cbn. apply IH. destruct e; [|exact H]. cbn. now apply dwrite_ext.
Qed.

Lemma skipn_skipn' {A} (l : list A) : forall n m, skipn n (skipn m l) = skipn (m + n) l.
Proof. induction l; intros n m; [now rewrite !skipn_nil|]. destruct m; cbn; [reflexivity|]. apply IHl. Qed.
Lemma firstn_add {A} (l : list A) : forall n m, firstn (n + m) l = firstn n l ++ firstn m (skipn n l).
Proof. induction l; intros n m; [now rewrite skipn_nil, !firstn_nil|]. destruct n; cbn; [reflexivity|]. now rewrite IHl. Qed.

Global Hint Rewrite @lenN_app @lenN_firstn @lenN_skipn dread_lenN @lenN_nil @lenN_cons : len.
