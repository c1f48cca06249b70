From Verif Require Import Base Slot Image Handlers SlotWrite SlotWriteSpec SlotWriteProofs SlotWriteTop.

Lemma run_facts h o c hook i s mp r w' : mp (sl_name s) = None -> slot_handler h o c hook i s (mkWst [] mp) = (r, w') ->
  if r then L_handler h c hook i s (ws_tr w') else cut (L_handler h c hook i s) (ws_tr w').
Proof.
  intros M E. apply does_handler in E; [|exact M]. destruct E as (ev & T & X). cbn in T. rewrite T. destruct r; tauto.
Qed.
Lemma handler_tame h c hook i s l : L_handler h c hook i s l -> tame c i l.
Proof.
  intros H. destruct (match h with H_hook_install => true | _ => false end) eqn:E.
  - destruct h; try discriminate. cbn in H. eapply tame_one; eauto.
  - eapply sh_tame, shape_handler; [|exact H]. intros ->. discriminate.
Qed.

(** ** C58: failures *)
Lemma c58_failures_ok : forall h o c hook i s mp r w',
  mp (sl_name s) = None -> slot_handler h o c hook i s (mkWst [] mp) = (r, w') ->
  (* success: whatever failed on the way does not matter *)
  (r = true -> forall a, In (a, false) (ws_tr w') -> harmless c i a) /\
  (* any other failure ends the update: it is reported, and only cleanup follows *)
  (forall t1 a t2, ws_tr w' = t1 ++ (a, false) :: t2 -> ~ harmless c i a ->
     r = false /\ forall e, In e t2 -> cleanup (fst e) = true).
Proof.
  intros h o c hook i s mp r w' M E. apply run_facts in E; [|exact M].
  assert (S : r = true -> forall a, In (a, false) (ws_tr w') -> harmless c i a).
  { intros -> a IN. apply handler_tame in E. unfold tame in E. rewrite Forall_forall in E. apply (E _ IN). reflexivity. }
  split; [exact S|]. intros t1 a t2 T NH. destruct r.
  { exfalso. apply NH, S; [reflexivity|]. rewrite T. apply in_elt. }
  split; [reflexivity|]. destruct E as (l1 & l2 & f & cl & HP & EQ & CL & F). rewrite EQ in T. symmetry in T. symmetry in T.
  apply split_in in T. destruct T as [(u & -> & _)|(u & -> & T)].
  - exfalso. apply NH. apply handler_tame in HP. unfold tame in HP. rewrite Forall_forall in HP. apply (HP (a, false)); [|reflexivity].
    apply in_or_app. left. apply in_elt.
  - apply split_in in T. rewrite Forall_forall in CL. destruct T as [(u2 & T & ->)|(u2 & -> & T)].
    + destruct F as [->|(a0 & l2' & -> & _)]; [destruct u; discriminate|]. destruct u as [|x u]; [|destruct u; discriminate].
      assert (u2 = []) by (cbn in T; congruence). subst u2. cbn. intros e H. now apply CL.
    + intros e H. apply CL. rewrite T. apply in_or_app. right. now right.
Qed.

(** ** hooks *)
Lemma count_app f a b : count f (a ++ b) = count f a + count f b.
Proof. unfold count. now rewrite filter_app, app_length. Qed.
Lemma count_hookless cmd l : hookless l -> count (is_hook cmd) l = 0.
Proof.
  unfold count. induction 1 as [|[a b] l H _ IH]; [reflexivity|]. cbn [filter fst] in *. destruct a; try exact IH. discriminate.
Qed.
Lemma count_quiet cmd l : quiet l -> count (is_hook cmd) l = 0.
Proof. intros H. apply count_hookless, quiet_hookless, H. Qed.
Lemma count_cleanup cmd l : Forall (fun e : act * bool => cleanup (fst e) = true) l -> count (is_hook cmd) l = 0.
Proof. intros H. apply count_hookless. eapply Forall_impl; [|exact H]. intros [a b]. cbn. destruct a; reflexivity || discriminate. Qed.
Lemma count_seg hook cmd cmd' en l : hookseg hook cmd' en l -> count (is_hook cmd) l = if en && String.eqb cmd' cmd then 1 else 0.
Proof.
  unfold hookseg. destruct en; cbn [andb]; [|apply count_quiet]. intros (q1 & env & q2 & -> & Q1 & Q2).
  rewrite count_app, (count_quiet _ _ Q1). cbn [Nat.add]. change ((AHook (getopt hook) cmd' env, true) :: q2) with ([(AHook (getopt hook) cmd' env, true)] ++ q2).
  rewrite count_app, (count_quiet _ _ Q2). unfold count. cbn. destruct (String.eqb cmd' cmd); reflexivity.
Qed.
Lemma shape_count c hook i l : shape c hook i l ->
  count (is_hook pre_cmd) l = (if has_hook hook (im_pre i) then 1 else 0) /\ count (is_hook post_cmd) l = (if has_hook hook (im_post i) then 1 else 0).
Proof.
  intros [(A & W & B & E & -> & HA & HW & _ & _ & HB & HE & _) _].
  rewrite !count_app, !(count_seg _ _ _ _ _ HA), !(count_seg _ _ _ _ _ HB), !(count_hookless _ _ HW), !(count_hookless _ _ HE).
  destruct (has_hook hook (im_pre i)), (has_hook hook (im_post i)); split; reflexivity.
Qed.
Lemma cut_count (P : lang) cmd ev n : (forall l, P l -> count (is_hook cmd) l = n) -> cut P ev -> count (is_hook cmd) ev <= n.
Proof.
  intros H (l1 & l2 & f & cl & HP & -> & CL & F). rewrite <- (H _ HP), !count_app, (count_cleanup _ _ CL).
  destruct F as [->|(a & l2' & -> & ->)]; [cbn; lia|].
  change ((a, true) :: l2') with ([(a, true)] ++ l2'). rewrite count_app. replace (count (is_hook cmd) [(a, false)]) with (count (is_hook cmd) [(a, true)]) by (unfold count; cbn; destruct (is_hook cmd a); reflexivity). lia.
Qed.

(** a boolean "hook is configured and enabled for this image" in words *)
Lemma enabled_spec hook flag : enabled hook flag <-> has_hook hook flag = true.
Proof. unfold enabled, has_hook. destruct hook; destruct flag; split; intuition congruence. Qed.

Lemma c58_hook_counts_ok : forall h o c hook i s mp r w',
  h <> H_hook_install -> mp (sl_name s) = None -> slot_handler h o c hook i s (mkWst [] mp) = (r, w') ->
  forall cmd flag, (cmd = "slot-pre-install" /\ flag = im_pre i \/ cmd = "slot-post-install" /\ flag = im_post i) ->
    count (is_hook cmd) (ws_tr w') <= 1 /\
    (~ enabled hook flag -> count (is_hook cmd) (ws_tr w') = 0) /\
    (r = true -> enabled hook flag -> count (is_hook cmd) (ws_tr w') = 1).
Proof.
  intros h o c hook i s mp r w' NH M E cmd flag CF. apply run_facts in E; [|exact M].
  assert (C : forall l, L_handler h c hook i s l -> count (is_hook cmd) l = if has_hook hook flag then 1 else 0).
  { intros l HL. apply shape_handler in HL; [|exact NH]. apply shape_count in HL. destruct CF as [[-> ->]|[-> ->]]; tauto. }
  assert (LE : count (is_hook cmd) (ws_tr w') <= if has_hook hook flag then 1 else 0).
  { destruct r; [rewrite (C _ E); lia|eapply cut_count; eauto]. }
  rewrite enabled_spec. destruct (has_hook hook flag).
  - split; [exact LE|]. split; [congruence|]. intros -> _. now apply C.
  - split; [lia|]. split; [lia|congruence].
Qed.

(** ** order *)
Lemma in_quiet_mod l t1 a b t2 : quiet l -> l = t1 ++ (a, b) :: t2 -> modifying a = false /\ hookish a = false.
Proof. intros H E. apply (forall_split _ _ _ _ _ H E). Qed.
Lemma hookseg_along hook cmd en l : hookseg hook cmd en l -> forall t1 a b t2, l = t1 ++ (a, b) :: t2 -> modifying a = false.
Proof.
  unfold hookseg. destruct en.
  - intros (q1 & env & q2 & -> & Q1 & Q2) t1 a b t2 E. apply split_in in E. destruct E as [(u & E & _)|(u & -> & E)].
    + eapply in_quiet_mod in E; [|exact Q1]. tauto.
    + destruct u as [|x u].
      * assert (a = AHook (getopt hook) cmd env) by (cbn in E; congruence). now subst.
      * assert (E2 : q2 = u ++ (a, b) :: t2) by (cbn in E; congruence). eapply in_quiet_mod in E2; [|exact Q2]. tauto.
  - intros Q t1 a b t2 E. eapply in_quiet_mod in E; [|exact Q]. tauto.
Qed.
Lemma hookseg_in hook cmd l : hookseg hook cmd true l -> exists env, In (AHook (getopt hook) cmd env, true) l.
Proof. intros (q1 & env & q2 & -> & _). exists env. apply in_elt. Qed.

Lemma shape_pre c hook i l : shape c hook i l -> has_hook hook (im_pre i) = true ->
  along (fun t1 a => modifying a = true -> exists env, In (AHook (getopt hook) pre_cmd env, true) t1) l.
Proof.
  intros [(A & W & B & E & -> & HA & _) _] EN t1 a b t2 X MD. rewrite EN in HA. apply split_in in X. destruct X as [(u & X & _)|(u & -> & _)].
  - rewrite (hookseg_along _ _ _ _ HA _ _ _ _ X) in MD. discriminate.
  - apply hookseg_in in HA. destruct HA as [env HA]. exists env. apply in_or_app. now left.
Qed.
Lemma cleanup_not a : cleanup a = true -> modifying a = false /\ hookish a = false /\ activates a = false.
Proof.
  destruct a as [argv inp out| | | | | | | | | | | | | | |]; try discriminate; try (repeat split; reflexivity).
  cbn [cleanup]. destruct argv as [|p [|m [|x r]]]; try discriminate.
  all: repeat (let b := fresh "b" in destruct p as [|[[] [] [] [] [] [] [] []] p]; try discriminate); repeat split; reflexivity.
Qed.

Lemma c58_pre_ok : forall h o c hk i s mp r w',
  h <> H_hook_install -> im_pre i = true -> mp (sl_name s) = None -> slot_handler h o c (Some hk) i s (mkWst [] mp) = (r, w') ->
  (* before anything is modified, the pre-install hook has succeeded *)
  forall t1 a b t2, ws_tr w' = t1 ++ (a, b) :: t2 -> modifying a = true ->
    exists env, In (AHook hk "slot-pre-install" env, true) t1.
Proof.
  intros h o c hk i s mp r w' NH EN M E. apply run_facts in E; [|exact M].
  assert (P : forall l, L_handler h c (Some hk) i s l -> along (fun t1 a => modifying a = true -> exists env, In (AHook hk pre_cmd env, true) t1) l).
  { intros l HL. eapply (shape_pre c (Some hk)); [eapply shape_handler; eauto|exact EN]. }
  intros t1 a b t2 X. destruct r; [eapply P; eauto|]. eapply cut_along in E; [|exact P|]; [eapply E; eauto|].
  intros t a0 CL MD. apply cleanup_not in CL. destruct CL as [CL _]. congruence.
Qed.

Definition post_done (t : hist) : Prop := exists hk env b, In (AHook hk "slot-post-install" env, b) t.
Lemma no_post_hookless t : hookless t -> ~ post_done t.
Proof. intros H (hk & env & b & IN). unfold hookless in H. rewrite Forall_forall in H. specialize (H _ IN). discriminate. Qed.
Lemma no_post_quiet t : quiet t -> ~ post_done t.
Proof. intros H. apply no_post_hookless, quiet_hookless, H. Qed.
Lemma no_post_pre hook en l : hookseg hook pre_cmd en l -> ~ post_done l.
Proof.
  unfold hookseg. destruct en; [|apply no_post_quiet]. intros (q1 & env & q2 & -> & Q1 & Q2) (hk & e2 & b & IN). apply in_app_or in IN. destruct IN as [IN|[IN|IN]].
  - apply (no_post_quiet q1 Q1). exists hk, e2, b. exact IN.
  - discriminate.
  - apply (no_post_quiet q2 Q2). exists hk, e2, b. exact IN.
Qed.
Lemma post_done_app a b : post_done (a ++ b) -> post_done a \/ post_done b.
Proof. intros (hk & e & x & IN). apply in_app_or in IN. destruct IN; [left|right]; exists hk, e, x; assumption. Qed.
Lemma post_done_pre a b : post_done a -> post_done (a ++ b).
Proof. intros (hk & e & x & IN). exists hk, e, x. apply in_or_app. now left. Qed.

(** the order of events around the post-install hook and the activation *)
Definition order (c : wctx) (hook : option string) (i : image) (t1 : hist) (a : act) : Prop :=
  (* the post-install hook runs only when enabled, after the content has been stored *)
  (forall hk env, a = AHook hk post_cmd env -> enabled hook (im_post i) /\ hook = Some hk /\ (emptyfs i = true \/ stored (getopt (im_filename i)) t1)) /\
  (* after it nothing but the activation changes a device *)
  (modifying a = true -> activates a = false -> ~ post_done t1) /\
  (* the activation comes last *)
  (activates a = true -> (emptyfs i = true \/ stored (getopt (im_filename i)) t1) /\
     (enabled hook (im_post i) -> exists env, In (AHook (getopt hook) post_cmd env, true) t1)).

Lemma shape_order c hook i l : shape c hook i l -> along (order c hook i) l.
Proof.
  intros [(A & W & B & E & -> & HA & HW & AW & ST & HB & HE & ME) _] t1 a b t2 X. unfold order.
  assert (NPA : ~ post_done A) by (eapply no_post_pre; eauto). assert (NPW : ~ post_done W) by now apply no_post_hookless.
  apply split_in in X. destruct X as [(u & X & _)|(u & -> & X)].
  { (* in A *)
    pose proof (hookseg_along _ _ _ _ HA _ _ _ _ X) as MD. split; [|split].
    - intros hk env ->. exfalso. apply NPA. exists hk, env, b. rewrite X. apply in_elt.
    - intros; congruence.
    - intros AC. rewrite (activates_modifying _ AC) in MD. discriminate. }
  apply split_in in X. destruct X as [(u2 & X & _)|(u2 & -> & X)].
  { (* in W *)
    pose proof (forall_split _ _ _ _ _ HW X) as HK. pose proof (forall_split _ _ _ _ _ AW X) as AC. cbn in HK, AC. split; [|split].
    - intros hk env ->. discriminate.
    - intros _ _ PD. apply post_done_app in PD. destruct PD as [PD|PD]; [auto|]. apply NPW. rewrite X. now apply post_done_pre.
    - intros; congruence. }
  assert (SA : emptyfs i = true \/ stored (getopt (im_filename i)) (A ++ W ++ u2)).
  { destruct ST as [ST|ST]; [now left|right]. apply stored_app_r, stored_app_l, ST. }
  apply split_in in X. destruct X as [(u3 & X & _)|(u3 & -> & X)].
  { (* in B *)
    pose proof (hookseg_along _ _ _ _ HB _ _ _ _ X) as MD. split; [|split].
    - intros hk env ->. split; [|split; [|exact SA]]; unfold hookseg in HB; destruct (has_hook hook (im_post i)) eqn:EN.
      + now apply enabled_spec.
      + eapply in_quiet_mod in X; [|exact HB]. destruct X as [_ X]. discriminate.
      + destruct HB as (q1 & env2 & q2 & HB & Q1 & Q2). rewrite HB in X. apply split_in in X. destruct X as [(u4 & X & _)|(u4 & -> & X)].
        * eapply in_quiet_mod in X; [|exact Q1]. destruct X as [_ X]. discriminate.
        * destruct u4 as [|x u4]; [|rewrite <- app_comm_cons in X; assert (E2 : q2 = u4 ++ (AHook hk post_cmd env, b) :: u3) by (injection X; intros; assumption); eapply in_quiet_mod in E2; [|exact Q2]; destruct E2 as [_ E2]; discriminate].
          rewrite app_nil_l in X. assert (getopt hook = hk) by congruence. destruct hook as [h0|]; [cbn [getopt] in *; congruence|discriminate EN].
      + eapply in_quiet_mod in X; [|exact HB]. destruct X as [_ X]. discriminate.
    - congruence.
    - intros AC. rewrite (activates_modifying _ AC) in MD. discriminate. }
  (* in E *)
  pose proof (forall_split _ _ _ _ _ HE X) as HK. pose proof (forall_split _ _ _ _ _ ME X) as MM. cbn in HK, MM. split; [|split].
  - intros hk env ->. discriminate.
  - intros MD AC. rewrite (MM MD) in AC. discriminate.
  - intros _. split; [exact SA|]. intros EN. apply enabled_spec in EN. rewrite EN in HB. apply hookseg_in in HB. destruct HB as [env HB]. exists env.
    apply in_or_app. right. apply in_or_app. right. apply in_or_app. now left.
Qed.

Lemma c58_order_ok : forall h o c hook i s mp r w',
  h <> H_hook_install -> mp (sl_name s) = None -> slot_handler h o c hook i s (mkWst [] mp) = (r, w') ->
  let complete t := im_type i = Some "emptyfs" \/ exists a, In (a, true) t /\ stores (getopt (im_filename i)) a = true in
  (* success means the content is on the device *)
  (r = true -> complete (ws_tr w')) /\
  forall t1 a b t2, ws_tr w' = t1 ++ (a, b) :: t2 ->
    (* the post-install hook runs only when enabled and when the content is complete *)
    (forall hk env, a = AHook hk "slot-post-install" env -> im_post i = true /\ hook = Some hk /\ complete t1) /\
    (* after it, nothing but the activation changes a device *)
    (modifying a = true -> activates a = false -> forall hk env b', ~ In (AHook hk "slot-post-install" env, b') t1) /\
    (* the new boot area is activated only when its content is complete and the post-install hook has succeeded *)
    (activates a = true -> complete t1 /\ forall hk, hook = Some hk -> im_post i = true -> exists env, In (AHook hk "slot-post-install" env, true) t1).
Proof.
  intros h o c hook i s mp r w' NH M E complete. apply run_facts in E; [|exact M].
  assert (CC : forall t, emptyfs i = true \/ stored (getopt (im_filename i)) t -> complete t).
  { intros t [H|H]; [left|right; exact H]. unfold emptyfs in H. destruct (im_type i); [|discriminate]. apply String.eqb_eq in H. now subst. }
  split.
  { intros ->. apply shape_handler in E; [|exact NH]. destruct E as [(A & W & B & X & -> & _ & _ & _ & ST & _) _]. apply CC. destruct ST as [ST|ST]; [now left|right].
    apply stored_app_r, stored_app_l, ST. }
  assert (P : forall l, L_handler h c hook i s l -> along (order c hook i) l) by (intros l HL; eapply shape_order, shape_handler; eauto).
  assert (O : along (order c hook i) (ws_tr w')).
  { destruct r; [now apply P|]. eapply cut_along; [exact P| |exact E]. intros t a CL. apply cleanup_not in CL. destruct CL as (C1 & C2 & C3).
    split; [intros hk env ->; discriminate|]. split; congruence. }
  intros t1 a b t2 X. destruct (O _ _ _ _ X) as (O1 & O2 & O3). split; [|split].
  - intros hk env EQ. destruct (O1 hk env EQ) as ([_ A] & B & C). auto.
  - intros MD AC hk env b' IN. apply (O2 MD AC). exists hk, env, b'. exact IN.
  - intros AC. destruct (O3 AC) as [A B]. split; [auto|]. intros hk EQ EN. subst hook. apply B. split; [discriminate|exact EN].
Qed.
