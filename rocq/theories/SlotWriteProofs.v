From Verif Require Import Base Slot Image Handlers SlotWrite SlotWriteSpec.

(** ** languages of histories *)
Definition lang := hist -> Prop.
Definition cat (P Q : lang) : lang := fun l => exists a b, l = a ++ b /\ P a /\ Q b.
Definition one (a : act) : lang := fun l => l = [(a, true)].
Definition eps : lang := fun l => l = [].
Definition opt (b : bool) (P : lang) : lang := if b then P else eps.
Definition inhab (P : lang) := exists l, P l.

(** a run cut short: a strict prefix of a complete one, perhaps a failed action, then cleanup *)
Definition cut (P : lang) (ev : hist) : Prop :=
  exists l1 l2 f cl, P (l1 ++ l2) /\ ev = l1 ++ f ++ cl /\ Forall (fun e => cleanup (fst e) = true) cl /\
    (f = [] \/ exists a l2', f = [(a, false)] /\ l2 = (a, true) :: l2').

(** [m], started with mount point [mp] for slot [n], performs a complete word of [P] and restores the mount
    point, or a cut one *)
Definition does (n : string) (mp : option string) (m : wprog) (P : lang) : Prop :=
  inhab P /\ forall w r w', ws_mp w n = mp -> m w = (r, w') ->
    exists ev, ws_tr w' = ws_tr w ++ ev /\
      if r then P ev /\ ws_mp w' n = mp else cut P ev.

Lemma inhab_cat P Q : inhab P -> inhab Q -> inhab (cat P Q).
Proof. intros [a A] [b B]. exists (a ++ b), a, b. auto. Qed.
Lemma cut_cat_l (P Q : lang) ev : inhab Q -> cut P ev -> cut (cat P Q) ev.
Proof.
  intros [q HQ] (l1 & l2 & f & cl & HP & -> & CL & F). exists l1, (l2 ++ q), f, cl. split.
  { exists (l1 ++ l2), q. rewrite app_assoc. auto. } split; [reflexivity|]. split; [exact CL|].
  destruct F as [->|(a & l2' & -> & ->)]; [now left|right]. exists a, (l2' ++ q). auto.
Qed.
Lemma cut_cat_r (P Q : lang) ev1 ev2 : P ev1 -> cut Q ev2 -> cut (cat P Q) (ev1 ++ ev2).
Proof.
  intros HP (l1 & l2 & f & cl & HQ & -> & CL & F). exists (ev1 ++ l1), l2, f, cl. split.
  { exists ev1, (l1 ++ l2). rewrite app_assoc. auto. } split; [now rewrite app_assoc|]. split; [exact CL|exact F].
Qed.
Lemma cut_app (P : lang) ev cl : cut P ev -> Forall (fun e => cleanup (fst e) = true) cl -> cut P (ev ++ cl).
Proof.
  intros (l1 & l2 & f & c0 & HP & -> & CL & F) H. exists l1, l2, f, (c0 ++ cl). split; [exact HP|]. split; [now rewrite !app_assoc|].
  split; [now apply Forall_app|exact F].
Qed.
Lemma cut_imp (P Q : lang) ev : (forall l, P l -> Q l) -> cut P ev -> cut Q ev.
Proof. intros H (l1 & l2 & f & cl & HP & X). exists l1, l2, f, cl. auto. Qed.

Lemma does_imp n mp m (P Q : lang) : (forall l, P l -> Q l) -> does n mp m P -> does n mp m Q.
Proof.
  intros H [[l L] D]. split; [exists l; auto|]. intros w r w' M E. destruct (D w r w' M E) as (ev & T & X). exists ev. split; [exact T|].
  destruct r; [destruct X; auto|eapply cut_imp; eauto].
Qed.
Lemma does_step n mp o a : does n mp (step o a) (one a).
Proof.
  split; [now exists [(a, true)]|]. intros w r w' M E. unfold step in E. assert (o (ws_tr w) a = r) by congruence. assert (w' = mkWst (ws_tr w ++ [(a, o (ws_tr w) a)]) (ws_mp w)) by congruence.
  subst w'. cbn. exists [(a, o (ws_tr w) a)]. split; [reflexivity|]. rewrite H. destruct r; [split; [reflexivity|exact M]|].
  exists [], [(a, true)], [(a, false)], []. repeat split; auto. right. eauto.
Qed.
Lemma does_skip n mp : does n mp skip eps.
Proof. split; [now exists []|]. intros w r w' M E. unfold skip in E. assert (r = true /\ w' = w) as [-> ->] by (split; congruence). exists []. rewrite app_nil_r. split; [reflexivity|]. split; [reflexivity|exact M]. Qed.
Lemma does_refuse n mp (P : lang) : inhab P -> does n mp refuse P.
Proof.
  intros [l HP]. split; [now exists l|]. intros w r w' M E. unfold refuse in E. assert (r = false /\ w' = w) as [-> ->] by (split; congruence). exists []. rewrite app_nil_r. split; [reflexivity|].
  exists [], l, [], []. split; [exact HP|]. auto.
Qed.
Lemma does_seq n mp m k P Q : does n mp m P -> does n mp k Q -> does n mp (m &&> k) (cat P Q).
Proof.
  intros [IP DP] [IQ DQ]. split; [now apply inhab_cat|]. intros w r w' M E. unfold andthen in E.
  destruct (m w) as [b w1] eqn:E1. destruct (DP w b w1 M E1) as (e1 & T1 & X1). destruct b.
  - destruct X1 as [X1 M1]. destruct (DQ w1 r w' M1 E) as (e2 & T2 & X2). exists (e1 ++ e2). split; [rewrite T2, T1; now rewrite app_assoc|].
    destruct r; [destruct X2 as [X2 M2]; split; [exists e1, e2; auto|exact M2]|now apply cut_cat_r].
  - assert (r = false /\ w' = w1) as [-> ->] by (split; congruence). exists e1. split; [exact T1|now apply cut_cat_l].
Qed.
Lemma does_when n mp b m P : does n mp m P -> does n mp (when b m) (opt b P).
Proof. intros D. destruct b; [exact D|apply does_skip]. Qed.

(** ** mounting *)
Definition mount_act (c : wctx) (s : slot) : act := ARun (mount_argv (sl_device s) (mount_point c s) (sl_type s) (sx_mount (wx_ext c (sl_name s)))) None None.
Definition umount_act (c : wctx) (s : slot) : act := ARun ["umount"; mount_point c s] None None.
Definition L_mount (c : wctx) (s : slot) : lang := fun l => l = [(AExists (sl_device s), true); (AMkdir (mount_point c s), true); (mount_act c s, true)].
Definition L_umount (c : wctx) (s : slot) : lang := fun l => exists b, l = [(umount_act c s, true); (ARmdir (mount_point c s), b)].
Definition L_mounted (c : wctx) (s : slot) (P : lang) : lang := cat (L_mount c s) (cat P (L_umount c s)).

(** unfolding one step *)
Lemma step_inv o a w r w' : step o a w = (r, w') -> ws_tr w' = ws_tr w ++ [(a, r)] /\ ws_mp w' = ws_mp w.
Proof. unfold step. intros E. assert (r = o (ws_tr w) a) by congruence. assert (w' = mkWst (ws_tr w ++ [(a, o (ws_tr w) a)]) (ws_mp w)) by congruence. subst. auto. Qed.

Lemma mount_slot_inv o c s w r w' : mount_slot o c s w = (r, w') -> ws_mp w (sl_name s) = None ->
  exists ev, ws_tr w' = ws_tr w ++ ev /\
    (r = true /\ L_mount c s ev /\ (forall n, ws_mp w' n = if String.eqb n (sl_name s) then Some (mount_point c s) else ws_mp w n) \/
     r = false /\ ws_mp w' = ws_mp w /\
       (ev = [(AExists (sl_device s), false)] \/ ev = [(AExists (sl_device s), true); (AMkdir (mount_point c s), false)] \/
        exists b, ev = [(AExists (sl_device s), true); (AMkdir (mount_point c s), true); (mount_act c s, false); (ARmdir (mount_point c s), b)])).
Proof.
  intros E M. unfold mount_slot in E. rewrite M in E. unfold andthen in E.
  destruct (step o (AExists (sl_device s)) w) as [b1 w1] eqn:E1. apply step_inv in E1. destruct E1 as [T1 M1]. destruct b1.
  2:{ assert (r = false /\ w' = w1) as [-> ->] by (split; congruence). eexists. split; [exact T1|]. right. auto. }
  destruct (step o (AMkdir _) w1) as [b2 w2] eqn:E2. apply step_inv in E2. destruct E2 as [T2 M2]. destruct b2.
  2:{ assert (r = false /\ w' = w2) as [-> ->] by (split; congruence). eexists. split; [rewrite T2, T1, <- app_assoc; reflexivity|]. right. split; [reflexivity|]. split; [congruence|]. auto. }
  destruct (step o _ w2) as [b3 w3] eqn:E3. apply step_inv in E3. destruct E3 as [T3 M3]. destruct b3.
  - assert (r = true /\ w' = set_mp (sl_name s) (Some (mount_point c s)) w3) as [-> ->] by (split; congruence). cbn [ws_tr set_mp ws_mp].
    eexists. split; [rewrite T3, T2, T1, <- !app_assoc; reflexivity|]. left. split; [reflexivity|]. split; [reflexivity|].
    intros n. rewrite M3, M2, M1. reflexivity.
  - destruct (step o (ARmdir _) w3) as [b4 w4] eqn:E4. apply step_inv in E4. destruct E4 as [T4 M4]. cbn [snd] in E.
    assert (r = false /\ w' = w4) as [-> ->] by (split; congruence). eexists. split; [rewrite T4, T3, T2, T1, <- !app_assoc; reflexivity|].
    right. split; [reflexivity|]. split; [congruence|]. right. right. exists b4. reflexivity.
Qed.
Lemma umount_slot_inv o c s w r w' : umount_slot o s w = (r, w') -> ws_mp w (sl_name s) = Some (mount_point c s) ->
  exists ev, ws_tr w' = ws_tr w ++ ev /\
    (r = true /\ L_umount c s ev /\ (forall n, ws_mp w' n = if String.eqb n (sl_name s) then None else ws_mp w n) \/
     r = false /\ ws_mp w' = ws_mp w /\ ev = [(umount_act c s, false)]).
Proof.
  intros E M. unfold umount_slot in E. rewrite M in E. destruct (step o _ w) as [b1 w1] eqn:E1. apply step_inv in E1. destruct E1 as [T1 M1]. destruct b1.
  - destruct (step o (ARmdir _) w1) as [b2 w2] eqn:E2. apply step_inv in E2. destruct E2 as [T2 M2]. cbn [snd] in E.
    assert (r = true /\ w' = set_mp (sl_name s) None w2) as [-> ->] by (split; congruence). cbn [ws_tr set_mp ws_mp].
    eexists. split; [rewrite T2, T1, <- !app_assoc; reflexivity|]. left. split; [reflexivity|]. split; [exists b2; reflexivity|]. intros n. rewrite M2, M1. reflexivity.
  - assert (r = false /\ w' = w1) as [-> ->] by (split; congruence). eexists. split; [exact T1|]. right. auto.
Qed.

Lemma umount_cleanup c s b1 : Forall (fun e : act * bool => cleanup (fst e) = true) [(umount_act c s, b1)].
Proof. constructor; [reflexivity|constructor]. Qed.
Lemma L_umount_cleanup c s ev : L_umount c s ev -> Forall (fun e : act * bool => cleanup (fst e) = true) ev.
Proof. intros [b ->]. constructor; [reflexivity|constructor; [reflexivity|constructor]]. Qed.

(** the block "mount; m; unmount in any case" *)
Lemma does_mounted o c s m P :
  does (sl_name s) (Some (mount_point c s)) m P ->
  (* a failing body leaves the mount point of the slot alone *)
  (forall w r w', m w = (r, w') -> ws_mp w (sl_name s) = Some (mount_point c s) -> ws_mp w' (sl_name s) = Some (mount_point c s)) ->
  does (sl_name s) None (mount_slot o c s &&> finally m (umount_slot o s)) (L_mounted c s P).
Proof.
  intros [IP D] K. split.
  { apply inhab_cat; [eexists; reflexivity|]. apply inhab_cat; [exact IP|]. exists [(umount_act c s, true); (ARmdir (mount_point c s), true)], true. reflexivity. }
  intros w r w' M E. unfold andthen in E. destruct (mount_slot o c s w) as [b1 w1] eqn:E1.
  apply mount_slot_inv in E1; [|exact M]. destruct E1 as (ev1 & T1 & [(-> & L1 & M1)|(-> & M1 & F1)]).
  2:{ assert (r = false /\ w' = w1) as [-> ->] by (split; congruence). exists ev1. split; [exact T1|].
      destruct IP as [p HP]. set (tl := p ++ [(umount_act c s, true); (ARmdir (mount_point c s), true)]).
      assert (W : L_mounted c s P ([(AExists (sl_device s), true); (AMkdir (mount_point c s), true); (mount_act c s, true)] ++ tl)).
      { eexists _, _. split; [reflexivity|]. split; [reflexivity|]. exists p, [(umount_act c s, true); (ARmdir (mount_point c s), true)].
        split; [reflexivity|]. split; [exact HP|exists true; reflexivity]. }
      destruct F1 as [->|[->|[b ->]]].
      - exists [], ([(AExists (sl_device s), true); (AMkdir (mount_point c s), true); (mount_act c s, true)] ++ tl), [(AExists (sl_device s), false)], [].
        split; [exact W|]. split; [reflexivity|]. split; [constructor|]. right. eexists _, _. split; reflexivity.
      - exists [(AExists (sl_device s), true)], ([(AMkdir (mount_point c s), true); (mount_act c s, true)] ++ tl), [(AMkdir (mount_point c s), false)], [].
        split; [exact W|]. split; [reflexivity|]. split; [constructor|]. right. eexists _, _. split; reflexivity.
      - exists [(AExists (sl_device s), true); (AMkdir (mount_point c s), true)], ([(mount_act c s, true)] ++ tl), [(mount_act c s, false)], [(ARmdir (mount_point c s), b)].
        split; [exact W|]. split; [reflexivity|]. split; [constructor; [reflexivity|constructor]|]. right. eexists _, _. split; reflexivity. }
  assert (M1s : ws_mp w1 (sl_name s) = Some (mount_point c s)) by (rewrite M1, String.eqb_refl; reflexivity).
  unfold finally in E. destruct (m w1) as [b2 w2] eqn:E2. pose proof (K _ _ _ E2 M1s) as M2s. apply D in E2; [|exact M1s]. destruct E2 as (ev2 & T2 & X2).
  destruct (umount_slot o s w2) as [b3 w3] eqn:E3. apply (umount_slot_inv o c) in E3; [|exact M2s]. destruct E3 as (ev3 & T3 & U).
  assert (r = b2 && b3 /\ w' = w3) as [-> ->] by (split; congruence).
  exists (ev1 ++ ev2 ++ ev3). split; [rewrite T3, T2, T1, <- !app_assoc; reflexivity|].
  destruct b2; cbn [andb].
  - destruct X2 as [X2 _]. destruct U as [(-> & L3 & M3)|(-> & M3 & ->)].
    + split; [exists ev1, (ev2 ++ ev3); split; [reflexivity|]; split; [exact L1|]; exists ev2, ev3; auto|]. rewrite M3, String.eqb_refl. reflexivity.
    + exists (ev1 ++ ev2), [(umount_act c s, true); (ARmdir (mount_point c s), true)], [(umount_act c s, false)], [].
      split; [|split; [rewrite <- app_assoc; reflexivity|split; [constructor|right; eexists _, _; split; reflexivity]]].
      rewrite <- app_assoc. exists ev1, (ev2 ++ [(umount_act c s, true); (ARmdir (mount_point c s), true)]). split; [reflexivity|]. split; [exact L1|].
      eexists _, _. split; [reflexivity|]. split; [exact X2|exists true; reflexivity].
  - apply cut_cat_r; [exact L1|]. apply cut_app; [apply cut_cat_l; [|exact X2]|].
    + exists [(umount_act c s, true); (ARmdir (mount_point c s), true)], true. reflexivity.
    + destruct U as [(_ & L3 & _)|(_ & _ & ->)]; [eapply L_umount_cleanup; exact L3|apply umount_cleanup].
Qed.

(** ** programs that leave a mounted slot mounted *)
Definition keeps (n : string) (m : wprog) : Prop := forall w r w', m w = (r, w') -> ws_mp w n <> None -> ws_mp w' n = ws_mp w n.
Lemma keeps_step n o a : keeps n (step o a).
Proof. intros w r w' E _. apply step_inv in E. destruct E as [_ ->]. reflexivity. Qed.
Lemma keeps_skip n : keeps n skip.
Proof. intros w r w' E _. unfold skip in E. assert (w' = w) by congruence. now subst. Qed.
Lemma keeps_refuse n : keeps n refuse.
Proof. intros w r w' E _. unfold refuse in E. assert (w' = w) by congruence. now subst. Qed.
Lemma keeps_seq n m k : keeps n m -> keeps n k -> keeps n (m &&> k).
Proof.
  intros A B w r w' E M. unfold andthen in E. destruct (m w) as [b w1] eqn:E1. pose proof (A _ _ _ E1 M) as X. destruct b.
  - rewrite (B _ _ _ E), X; congruence.
  - assert (w' = w1) by congruence. now subst.
Qed.
Lemma keeps_when n b m : keeps n m -> keeps n (when b m).
Proof. destruct b; [auto|intros _; apply keeps_skip]. Qed.
Lemma keeps_hook n o c hook cmd i s vars : keeps n (run_hook o c hook cmd i s vars).
Proof. intros w r w' E M. unfold run_hook in E. destruct hook; [eapply keeps_step; eauto|]. assert (w' = w) by congruence. now subst. Qed.
Lemma keeps_casync_extract n o c file seed dest out : keeps n (casync_extract o c file seed dest out).
Proof. unfold casync_extract. destruct (wx_casync_args c); [apply keeps_step|apply keeps_refuse]. Qed.
Lemma keeps_casync n o c i file dest out : keeps n (casync_image o c i file dest out).
Proof.
  intros w r w' E M. unfold casync_image in E. destruct (if wx_desync c then None else _) as [sd|]; [|eapply keeps_casync_extract; eauto].
  destruct (has_suffix ".caidx" file).
  2:{ destruct (step o _ w) as [b w1] eqn:E1. apply step_inv in E1. destruct E1 as [_ M1]. rewrite <- M1. eapply keeps_casync_extract; eauto. congruence. }
  destruct (ws_mp w (sl_name sd)) eqn:MS; [eapply keeps_casync_extract; eauto|].
  destruct (String.eqb_spec n (sl_name sd)) as [->|NE]; [congruence|]. apply String.eqb_neq in NE.
  destruct (mount_slot o c sd w) as [b w1] eqn:E1. apply mount_slot_inv in E1; [|exact MS]. destruct E1 as (ev & _ & [(-> & _ & M1)|(-> & M1 & _)]).
  - assert (A : ws_mp w1 n = ws_mp w n) by (rewrite M1, NE; reflexivity). unfold finally in E. destruct (casync_extract _ _ _ _ _ _ w1) as [b2 w2] eqn:E2.
    pose proof (keeps_casync_extract (sl_name sd) _ _ _ _ _ _ _ _ _ E2) as S2. rewrite M1, String.eqb_refl in S2.
    assert (B : ws_mp w2 n = ws_mp w1 n) by (eapply keeps_casync_extract; [exact E2|congruence]). destruct (umount_slot o sd w2) as [b3 w3] eqn:E3. assert (w' = w3) by congruence. subst w3.
    apply (umount_slot_inv o c) in E3; [|apply S2; discriminate]. destruct E3 as (ev3 & _ & [(_ & _ & M3)|(_ & M3 & _)]).
    + rewrite M3, NE. congruence.
    + congruence.
  - rewrite <- M1. eapply keeps_casync_extract; eauto. congruence.
Qed.
Lemma keeps_unpack n o c i file dest : keeps n (unpack o c i file dest).
Proof. unfold unpack. destruct (has_suffix ".caidx" file); [apply keeps_casync|]. destruct (has_suffix ".catar" file); [apply keeps_casync|apply keeps_step]. Qed.

(** ** casync *)
Definition casync_act (c : wctx) (args : list string) (file : string) (seed : option string) (dest : string) (out : option string) : act :=
  ARun (casync_argv c args file seed (match out with Some _ => "-" | None => dest end)) None out.
(** [n]: the slot that is being updated; a seed is mounted only if it is another slot *)
Inductive L_casync (n : string) (c : wctx) (i : image) (file dest : string) (out : option string) : lang :=
| LC_plain args seed : L_casync n c i file dest out [(casync_act c args file seed dest out, true)]
| LC_blob args seed sd b : seeds c i sd -> L_casync n c i file dest out [(ASeedStat (sl_device sd), b); (casync_act c args file seed dest out, true)]
| LC_tree args sd b : seeds c i sd -> sl_name sd <> n -> has_suffix ".caidx" file = true ->
    L_casync n c i file dest out [(AExists (sl_device sd), true); (AMkdir (mount_point c sd), true); (mount_act c sd, true);
      (casync_act c args file (Some (mount_point c sd)) dest out, true); (umount_act c sd, true); (ARmdir (mount_point c sd), b)]
| LC_fail1 args sd : seeds c i sd ->
    L_casync n c i file dest out [(AExists (sl_device sd), false); (casync_act c args file None dest out, true)]
| LC_fail2 args sd : seeds c i sd ->
    L_casync n c i file dest out [(AExists (sl_device sd), true); (AMkdir (mount_point c sd), false); (casync_act c args file None dest out, true)]
| LC_fail3 args sd b : seeds c i sd ->
    L_casync n c i file dest out [(AExists (sl_device sd), true); (AMkdir (mount_point c sd), true); (mount_act c sd, false); (ARmdir (mount_point c sd), b);
      (casync_act c args file None dest out, true)].

Lemma active_member_seeds c i sd : active_member c (im_class i) = Some sd -> seeds c i sd.
Proof.
  unfold active_member. intros H. apply find_some in H. destruct H as [H1 H2]. apply andb_true_iff in H2. destruct H2 as [H2 H3].
  split; [exact H1|]. split; [|now apply String.eqb_eq]. intros X. rewrite X in H2. discriminate.
Qed.

Lemma casync_extract_inv o c file seed dest out w r w' : casync_extract o c file seed dest out w = (r, w') ->
  ws_mp w' = ws_mp w /\ exists args ev, ws_tr w' = ws_tr w ++ ev /\
    (ev = [(casync_act c args file seed dest out, r)] \/ r = false /\ ev = []).
Proof.
  unfold casync_extract. destruct (wx_casync_args c) as [args|]; intros E.
  - apply step_inv in E. destruct E as [T M]. split; [exact M|]. exists args. eexists. split; [exact T|]. now left.
  - unfold refuse in E. assert (r = false /\ w' = w) as [-> ->] by (split; congruence). split; [reflexivity|]. exists [], []. rewrite app_nil_r. auto.
Qed.

Lemma casync_cut (P : lang) l1 a l2 r ev cl : P (l1 ++ (a, true) :: l2) -> ev = [(a, r)] \/ r = false /\ ev = [] -> r = false ->
  Forall (fun e => cleanup (fst e) = true) cl -> cut P (l1 ++ ev ++ cl).
Proof.
  intros HP [->|[_ ->]] E CL; subst.
  - exists l1, ((a, true) :: l2), [(a, false)], cl. split; [exact HP|]. split; [reflexivity|]. split; [exact CL|]. right. eauto.
  - exists l1, ((a, true) :: l2), [], cl. split; [exact HP|]. split; [reflexivity|]. auto.
Qed.

Lemma does_casync n mp o c i file dest out : (has_suffix ".caidx" file = true -> mp <> None) ->
  does n mp (casync_image o c i file dest out) (L_casync n c i file dest out).
Proof.
  intros CX. split; [exists [(casync_act c [] file None dest out, true)]; constructor|].
  intros w r w' M E. assert (KP : mp <> None -> ws_mp w' n = mp) by (intros X; rewrite <- M; eapply keeps_casync; eauto; congruence).
  unfold casync_image in E.
  assert (plain : forall seed w0 w1 r1, casync_extract o c file seed dest out w0 = (r1, w1) ->
    ws_mp w1 = ws_mp w0 /\ exists ev, ws_tr w1 = ws_tr w0 ++ ev /\ (if r1 then exists args, ev = [(casync_act c args file seed dest out, true)] else True) /\
      exists args, ev = [(casync_act c args file seed dest out, r1)] \/ r1 = false /\ ev = []).
  { intros seed w0 w1 r1 X. apply casync_extract_inv in X. destruct X as (X & args & ev & T & Y). split; [exact X|]. exists ev. split; [exact T|]. split; [|eauto].
    destruct r1; [|trivial]. destruct Y as [->|[Y _]]; [eauto|discriminate]. }
  assert (direct : forall seed, casync_extract o c file seed dest out w = (r, w') ->
    exists ev, ws_tr w' = ws_tr w ++ ev /\ if r then L_casync n c i file dest out ev /\ ws_mp w' n = mp else cut (L_casync n c i file dest out) ev).
  { intros seed X. apply plain in X. destruct X as (XM & ev & T & _ & args & Y). exists ev. split; [exact T|]. destruct r.
    - destruct Y as [->|[Y _]]; [|discriminate]. split; [constructor|]. congruence.
    - pose proof (casync_cut (L_casync n c i file dest out) [] (casync_act c args file seed dest out) [] false ev [] (LC_plain _ _ _ _ _ _ _ _) Y eq_refl (Forall_nil _)) as Z.
      cbn in Z. rewrite app_nil_r in Z. exact Z. }
  destruct (if wx_desync c then None else active_member c (im_class i)) as [sd|] eqn:SD; [|eapply direct; eauto].
  assert (HS : seeds c i sd) by (destruct (wx_desync c); [discriminate|now apply active_member_seeds]).
  destruct (has_suffix ".caidx" file) eqn:SUF.
  2:{ destruct (step o _ w) as [b w1] eqn:E1. apply step_inv in E1. destruct E1 as [T1 M1]. apply plain in E. destruct E as (EM & ev & T & _ & args & Y).
      exists ((ASeedStat (sl_device sd), b) :: ev). split; [rewrite T, T1, <- app_assoc; reflexivity|]. destruct r.
      - destruct Y as [->|[Y _]]; [|discriminate]. split; [constructor; exact HS|]. congruence.
      - pose proof (casync_cut (L_casync n c i file dest out) [(ASeedStat (sl_device sd), b)] _ [] false ev [] (LC_blob _ _ _ _ _ _ args (if b then Some (sl_device sd) else None) sd b HS) Y eq_refl (Forall_nil _)) as Z.
        cbn in Z. rewrite app_nil_r in Z. exact Z. }
  destruct (ws_mp w (sl_name sd)) eqn:MS; [eapply direct; eauto|].
  assert (NS : sl_name sd <> n) by (specialize (CX eq_refl); intros X; rewrite X in MS; congruence).
  destruct (mount_slot o c sd w) as [b w1] eqn:E1. apply mount_slot_inv in E1; [|exact MS]. destruct E1 as (ev1 & T1 & [(-> & L1 & M1)|(-> & M1 & F1)]).
  - unfold finally in E. assert (S1 : ws_mp w1 (sl_name sd) = Some (mount_point c sd)) by (rewrite M1, String.eqb_refl; reflexivity). rewrite S1 in E.
    destruct (casync_extract _ _ _ _ _ _ w1) as [b2 w2] eqn:E2. apply plain in E2. destruct E2 as (M2 & ev2 & T2 & _ & args & Y).
    destruct (umount_slot o sd w2) as [b3 w3] eqn:E3. apply (umount_slot_inv o c) in E3; [|congruence]. destruct E3 as (ev3 & T3 & U).
    assert (r = b2 && b3 /\ w' = w3) as [-> ->] by (split; congruence).
    exists (ev1 ++ ev2 ++ ev3). split; [rewrite T3, T2, T1, <- !app_assoc; reflexivity|]. unfold L_mount in L1. subst ev1. destruct b2; cbn [andb].
    + destruct Y as [->|[Y _]]; [|discriminate]. destruct U as [(-> & [b4 ->] & M3)|(-> & M3 & ->)].
      * split; [cbn; constructor; assumption|]. apply KP, CX; reflexivity.
      * exists [(AExists (sl_device sd), true); (AMkdir (mount_point c sd), true); (mount_act c sd, true); (casync_act c args file (Some (mount_point c sd)) dest out, true)],
          [(umount_act c sd, true); (ARmdir (mount_point c sd), true)], [(umount_act c sd, false)], [].
        split; [cbn; constructor; assumption|]. split; [reflexivity|]. split; [constructor|]. right. eexists _, _. split; reflexivity.
    + eapply (casync_cut (L_casync n c i file dest out) _ _ _ false ev2 ev3); [|exact Y|reflexivity|].
      * cbn. eapply (LC_tree _ _ _ _ _ _ args sd true HS NS SUF).
      * destruct U as [(_ & L3 & _)|(_ & _ & ->)]; [eapply L_umount_cleanup; exact L3|apply umount_cleanup].
  - apply plain in E. destruct E as (EM & ev & T & _ & args & Y). exists (ev1 ++ ev). split; [rewrite T, T1, <- app_assoc; reflexivity|].
    assert (MM : ws_mp w' n = mp) by congruence.
    assert (W : L_casync n c i file dest out (ev1 ++ [(casync_act c args file None dest out, true)])).
    { destruct F1 as [->|[->|[b4 ->]]]; cbn; constructor; exact HS. }
    destruct r.
    + destruct Y as [->|[Y _]]; [|discriminate]. split; [exact W|exact MM].
    + pose proof (casync_cut (L_casync n c i file dest out) ev1 _ [] false ev [] W Y eq_refl (Forall_nil _)) as Z.
      rewrite app_nil_r in Z. exact Z.
Qed.

(** ** the hooks *)
Definition hook_act (c : wctx) (hook : option string) (cmd : string) (i : image) (s : slot) (mp : option string) (vars : list (string * string)) : act :=
  AHook (getopt hook) cmd (hook_env c i s mp vars).
Lemma does_hook mp o c h cmd i s vars : does (sl_name s) mp (run_hook o c (Some h) cmd i s vars) (one (hook_act c (Some h) cmd i s mp vars)).
Proof.
  split; [now exists [(hook_act c (Some h) cmd i s mp vars, true)]|]. intros w r w' M E. unfold run_hook in E. rewrite M in E. eapply does_step in E; [exact E|exact M].
Qed.
Definition L_hook c hook (enabled : bool) cmd i s mp vars : lang := opt (has_hook hook enabled) (one (hook_act c hook cmd i s mp vars)).
Lemma does_hook_opt mp o c hook en cmd i s vars : does (sl_name s) mp (when (has_hook hook en) (run_hook o c hook cmd i s vars)) (L_hook c hook en cmd i s mp vars).
Proof. unfold L_hook. destruct hook as [h|]; [apply does_when, does_hook|apply does_skip]. Qed.
Definition L_hook_mounted c hook (enabled : bool) cmd i s : lang :=
  opt (has_hook hook enabled) (L_mounted c s (one (hook_act c hook cmd i s (Some (mount_point c s)) []))).
Lemma does_hook_mounted o c hook en cmd i s :
  does (sl_name s) None (when (has_hook hook en) (mount_and_run_hook o c hook cmd i s)) (L_hook_mounted c hook en cmd i s).
Proof.
  unfold L_hook_mounted. destruct hook as [h|]; [|apply does_skip]. apply does_when. unfold mount_and_run_hook. apply does_mounted; [apply does_hook|].
  intros w r w' E M. rewrite <- M. eapply keeps_hook; eauto. congruence.
Qed.

(** ** the contents *)
Definition pre_cmd := "slot-pre-install".
Definition post_cmd := "slot-post-install".
Definition L_unpack c i file s : lang :=
  if has_suffix ".caidx" file || has_suffix ".catar" file then L_casync (sl_name s) c i file (mount_point c s) None
  else one (ARun (tar_argv file (mount_point c s)) (Some file) None).
Lemma does_unpack o c i file s : does (sl_name s) (Some (mount_point c s)) (unpack o c i file (mount_point c s)) (L_unpack c i file s).
Proof.
  unfold unpack, L_unpack. destruct (has_suffix ".caidx" file); cbn [orb]; [apply does_casync; discriminate|].
  destruct (has_suffix ".catar" file); [apply does_casync; discriminate|apply does_step].
Qed.
Lemma caibx_not_caidx file : has_suffix ".caibx" file = true -> has_suffix ".caidx" file = true -> False.
Proof.
  unfold has_suffix. intros A B. apply andb_true_iff in A, B. destruct A as [_ A], B as [_ B]. apply String.eqb_eq in A, B. cbn [String.length] in A, B. congruence.
Qed.
Definition L_write c i file s : lang :=
  if has_suffix ".caibx" file then L_casync (sl_name s) c i file (sl_device s) None else one (AWrite file (sl_device s)).
Lemma does_write mp o c i file s : does (sl_name s) mp (write_dev o c i file s) (L_write c i file s).
Proof.
  unfold write_dev, L_write. destruct (has_suffix ".caibx" file) eqn:E; [|apply does_step]. apply does_casync. intros X. destruct (caibx_not_caidx _ E X).
Qed.
Definition L_ubi c i file s : lang :=
  cat (one (AOpen (sl_device s))) (cat (one (AVolUp (sl_device s) (im_size i)))
    (cat (if has_suffix ".caibx" file then L_casync (sl_name s) c i file "" (Some (sl_device s)) else one (ACopy file (sl_device s)))
         (one (AClose (sl_device s))))).
Lemma does_ubi mp o c i file s : does (sl_name s) mp (write_ubi o c i file s) (L_ubi c i file s).
Proof.
  unfold write_ubi, L_ubi. apply does_seq; [apply does_step|]. apply does_seq; [apply does_step|]. apply does_seq; [|apply does_step].
  destruct (has_suffix ".caibx" file) eqn:E; [|apply does_step]. apply does_casync. intros X. destruct (caibx_not_caidx _ E X).
Qed.
Definition L_fill c hook (empty : bool) i file s : lang :=
  L_mounted c s (cat (if empty then eps else L_unpack c i file s) (L_hook c hook (im_post i) post_cmd i s (Some (mount_point c s)) [])).
Lemma does_fill o c hook empty i file s : does (sl_name s) None (unpack_mounted o c hook empty i file s) (L_fill c hook empty i file s).
Proof.
  unfold unpack_mounted, L_fill. apply does_mounted.
  - apply does_seq; [destruct empty; [apply does_skip|apply does_unpack]|apply does_hook_opt].
  - intros w r w' E M. rewrite <- M. revert E. generalize M. clear M. intros M E. eapply keeps_seq; [| |exact E|congruence].
    + destruct empty; [apply keeps_skip|apply keeps_unpack].
    + apply keeps_when, keeps_hook.
Qed.

(** ** the handlers *)
Definition emptyfs (i : image) : bool := match im_type i with Some t => String.eqb t "emptyfs" | None => false end.
Definition L_pre c hook i s vars := L_hook c hook (im_pre i) pre_cmd i s None vars.
Definition L_post c hook i s vars := L_hook c hook (im_post i) post_cmd i s None vars.
Definition L_prem c hook i s := L_hook_mounted c hook (im_pre i) pre_cmd i s.
Definition L_postm c hook i s := L_hook_mounted c hook (im_post i) post_cmd i s.
Definition part_of (c : wctx) : N * N := match wx_part c with Some p => p | None => (0, 0)%N end.
Definition switch_vars (c : wctx) (s : slot) : list (string * string) :=
  [("RAUC_BOOT_PARTITION_ACTIVATING", if N.eqb (fst (part_of c)) (sx_start (wx_ext c (sl_name s))) then "0" else "1");
   ("RAUC_BOOT_PARTITION_START", print_num 10 (fst (part_of c))); ("RAUC_BOOT_PARTITION_SIZE", print_num 10 (snd (part_of c)))].
Definition emmc_dev (c : wctx) : string := getopt (wx_realdev c).
Definition emmc_inactive (c : wctx) : nat := Nat.modulo (match wx_bp c with Some (Some a) => a | _ => 1 end + 1) 2.
Definition emmc_part (c : wctx) (s : slot) : slot :=
  mkSlot (sl_name s) (sl_class s) (emmc_dev c ++ "boot" ++ print_num 10 (N.of_nat (emmc_inactive c))) (sl_type s) None None false false.
Definition emmc_vars (c : wctx) (s : slot) : list (string * string) :=
  [("RAUC_BOOT_PARTITION_ACTIVATING", print_num 10 (N.of_nat (emmc_inactive c)));
   ("RAUC_BOOT_SIZE_LIMIT", print_num 10 (sx_limit (wx_ext c (sl_name s)))); ("RAUC_SLOT_DEVICE", emmc_dev c)].
Definition raw_vars (c : wctx) (s : slot) : list (string * string) :=
  [("RAUC_BOOT_REGION_START", print_num 10 (sx_start (wx_ext c (sl_name s)))); ("RAUC_BOOT_REGION_SIZE", print_num 10 (sx_size (wx_ext c (sl_name s))))].
Definition L_area s file start half : lang :=
  cat (one (AClear (sl_device s) start (Some half))) (one (AWriteAt file (sl_device s) start half 512)).

Definition L_handler (h : handler) (c : wctx) (hook : option string) (i : image) (s : slot) : lang :=
  let file := getopt (im_filename i) in
  let dev := sl_device s in
  let x := wx_ext c (sl_name s) in
  match h with
  | H_img_to_fs => cat (L_prem c hook i s) (cat (L_write c i file s)
      (cat (opt (sx_resize x && String.eqb (sl_type s) "ext4") (one (ARun (resize_argv s) None None))) (L_postm c hook i s)))
  | H_img_to_raw => cat (L_pre c hook i s []) (cat (L_write c i file s) (L_post c hook i s []))
  | H_img_to_ubivol => cat (L_pre c hook i s []) (cat (L_ubi c i file s) (L_post c hook i s []))
  | H_img_to_ubifs => cat (L_prem c hook i s) (cat (L_ubi c i file s) (L_postm c hook i s))
  | H_img_to_nor => cat (L_pre c hook i s []) (cat (one (ARun (flashcp_argv file dev) None None)) (L_post c hook i s []))
  | H_img_to_nand => cat (L_pre c hook i s []) (cat (one (ARun (flash_erase_argv dev) None None))
      (cat (one (ARun (nandwrite_argv dev) (Some file) None)) (L_post c hook i s [])))
  | H_archive_to_ext4 => cat (L_pre c hook i s []) (cat (one (ARun (mkfs_ext4_argv c s) None None)) (L_fill c hook (emptyfs i) i file s))
  | H_archive_to_ubifs => cat (L_prem c hook i s) (cat (one (ARun (mkfs_ubifs_argv c s) None None)) (L_fill c hook false i file s))
  | H_archive_to_vfat => cat (L_pre c hook i s []) (cat (one (ARun (mkfs_vfat_argv c s) None None)) (L_fill c hook false i file s))
  | H_archive_to_jffs2 => cat (L_prem c hook i s) (cat (one (ARun (flash_erase_argv dev) None None)) (L_fill c hook false i file s))
  | H_boot_mbr_switch | H_boot_gpt_switch =>
      cat (L_pre c hook i s (switch_vars c s)) (cat (one (AClear dev (fst (part_of c)) (Some (snd (part_of c)))))
        (cat (one (AWriteAt file dev (fst (part_of c)) (snd (part_of c)) 0)) (cat (L_post c hook i s (switch_vars c s)) (one (ASwitch dev (fst (part_of c)) (snd (part_of c)))))))
  | H_boot_emmc =>
      let p := emmc_part c s in
      cat (cat (one (AForceRo (sl_device p) false)) (cat (L_pre (part_ctx c s) hook i p (emmc_vars c s)) (cat (one (AClear (sl_device p) 0 None))
        (cat (one (AWrite file (sl_device p))) (cat (L_post (part_ctx c s) hook i p (emmc_vars c s)) (one (AForceRo (sl_device p) true)))))))
        (cat (one (ASwitchEmmc (sl_device p) (emmc_inactive c))) eps)
  | H_boot_raw_fallback =>
      cat (L_pre c hook i s (raw_vars c s))
        (match wx_clear c with
         | Some false => cat (L_area s file (sx_start x + sx_size x / 2)%N (sx_size x / 2)%N) (cat (L_area s file (sx_start x) (sx_size x / 2)%N) (L_post c hook i s (raw_vars c s)))
         | _ => cat (L_area s file (sx_start x) (sx_size x / 2)%N) (cat (L_area s file (sx_start x + sx_size x / 2)%N (sx_size x / 2)%N) (L_post c hook i s (raw_vars c s)))
         end)
  | H_hook_install => one (hook_act c hook "slot-install" i s None [])
  end.

Lemma does_guarded n mp o m P dev : does n mp m P ->
  does n mp (fun w => let (b, w1) := m w in if b then (true, w1) else (false, snd (step o (AForceRo dev true) w1))) P.
Proof.
  intros [IP D]. split; [exact IP|]. intros w r w' M E. destruct (m w) as [b w1] eqn:E1. destruct (D _ _ _ M E1) as (ev & T & X). destruct b.
  - assert (r = true /\ w' = w1) as [-> ->] by (split; congruence). eauto.
  - destruct (step o (AForceRo dev true) w1) as [b2 w2] eqn:E2. apply step_inv in E2. destruct E2 as [T2 _]. cbn [snd] in E.
    assert (r = false /\ w' = w2) as [-> ->] by (split; congruence). exists (ev ++ [(AForceRo dev true, b2)]). split; [rewrite T2, T, <- app_assoc; reflexivity|].
    apply cut_app; [exact X|]. constructor; [reflexivity|constructor].
Qed.

Lemma inhab_one a : inhab (one a). Proof. eexists. reflexivity. Qed.
Lemma inhab_eps : inhab eps. Proof. now exists []. Qed.
Lemma inhab_hook c hook en cmd i s mp vars : inhab (L_hook c hook en cmd i s mp vars).
Proof. unfold L_hook. destruct (has_hook hook en); [apply inhab_one|apply inhab_eps]. Qed.
Lemma inhab_area s file start half : inhab (L_area s file start half).
Proof. apply inhab_cat; apply inhab_one. Qed.
Ltac inh := repeat first [apply inhab_cat | apply inhab_one | apply inhab_hook | apply inhab_area | apply inhab_eps].

Lemma does_switch o c hook i s : does (sl_name s) None (img_to_boot_switch o c hook i (getopt (im_filename i)) s) (L_handler H_boot_mbr_switch c hook i s).
Proof.
  unfold img_to_boot_switch. cbn [L_handler]. unfold switch_vars, part_of. destruct (wx_part c) as [[start size]|]; cbn [fst snd].
  - destruct (_ <? _)%Z; [apply does_refuse; inh|]. repeat apply does_seq; try apply does_step; apply does_hook_opt.
  - apply does_refuse. inh.
Qed.

Lemma does_handler h o c hook i s : does (sl_name s) None (slot_handler h o c hook i s) (L_handler h c hook i s).
Proof.
  destruct h; cbn [slot_handler L_handler].
  - unfold img_to_fs. repeat apply does_seq; [apply does_hook_mounted|apply does_write|apply does_when, does_step|apply does_hook_mounted].
  - unfold img_to_raw. repeat apply does_seq; [apply does_hook_opt|apply does_write|apply does_hook_opt].
  - unfold img_to_ubivol. apply does_seq; [apply does_hook_opt|apply does_seq; [apply does_ubi|apply does_hook_opt]].
  - unfold img_to_ubifs. apply does_seq; [apply does_hook_mounted|apply does_seq; [apply does_ubi|apply does_hook_mounted]].
  - unfold img_to_nor. repeat apply does_seq; [apply does_hook_opt|apply does_step|apply does_hook_opt].
  - unfold img_to_nand. repeat apply does_seq; [apply does_hook_opt|apply does_step|apply does_step|apply does_hook_opt].
  - unfold archive_to_ext4. apply does_seq; [apply does_hook_opt|apply does_seq; [apply does_step|apply does_fill]].
  - unfold archive_to_ubifs. apply does_seq; [apply does_hook_mounted|apply does_seq; [apply does_step|apply does_fill]].
  - unfold archive_to_vfat. apply does_seq; [apply does_hook_opt|apply does_seq; [apply does_step|apply does_fill]].
  - unfold archive_to_jffs2. apply does_seq; [apply does_hook_mounted|apply does_seq; [apply does_step|apply does_fill]].
  - (* eMMC *)
    unfold img_to_boot_emmc. destruct (wx_realdev c) as [dev|] eqn:RD; [|apply does_refuse; inh]. destruct (wx_bp c) as [bp|] eqn:BP; [|apply does_refuse; inh].
    unfold emmc_vars, emmc_part, emmc_dev, emmc_inactive. rewrite RD, BP. cbn [getopt].
    change (getopt (Some dev)) with dev. set (ina := Nat.modulo ((match bp with Some a => a | None => 1 end) + 1) 2).
    apply does_seq; [|apply does_seq; [apply does_step|]].
    + unfold copy_to_bootpart. apply does_guarded. cbn [sl_device]. repeat apply does_seq; try apply does_step.
      * apply (does_hook_opt None o (part_ctx c s) hook (im_pre i) _ i (mkSlot (sl_name s) _ _ _ None None false false)).
      * apply (does_hook_opt None o (part_ctx c s) hook (im_post i) _ i (mkSlot (sl_name s) _ _ _ None None false false)).
    + destruct (wx_bp_after c) as [[a|]|]; [destruct (Nat.eqb a _)|..]; first [apply does_skip|apply does_refuse; inh].
  - apply does_switch.
  - apply does_switch.
  - (* raw fallback *)
    unfold img_to_boot_raw_fallback. assert (IH : inhab (L_handler H_boot_raw_fallback c hook i s)) by (cbn [L_handler]; destruct (wx_clear c) as [[|]|]; inh).
    destruct (negb _); [apply does_refuse, IH|]. destruct (negb _); [apply does_refuse, IH|]. destruct (_ <? _)%Z; [apply does_refuse, IH|].
    apply does_seq; [apply does_hook_opt|].
    destruct (wx_clear c) as [[|]|]; [| |apply does_refuse; inh].
    + apply does_seq; [apply does_seq; apply does_step|]. apply does_seq; [apply does_seq; apply does_step|apply does_hook_opt].
    + apply does_seq; [apply does_seq; apply does_step|]. apply does_seq; [apply does_seq; apply does_step|apply does_hook_opt].
  - unfold hook_install. destruct hook as [h|]; [apply does_hook|]. 
    change (run_hook o c None "slot-install" i s []) with refuse. apply does_refuse. inh.
Qed.
