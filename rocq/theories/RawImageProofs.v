From Verif Require Import Base Disk DiskLemmas ExactIO ExactIOSpec ExactIOProofs BootRegion BootRegionSpec BootRegionProofs MbrProofs GptSpec GptProofs Emmc EmmcSpec EmmcProofs.

(** C18 for a raw image written to a device (copy_raw_image_to_dev) *)
Lemma c18_raw_image_ok : forall fuel o dsz ss limit img size d0 r st',
  copy_to_dev fuel o dsz ss limit img size (mkIo 0 d0 []) = (r, st') ->
  (* whatever happens, only the first [size] bytes of the device are touched *)
  same_outside 0 size d0 (io_disk st') /\
  (r = Done tt ->
     (size <= dsz)%N /\ (0 < limit -> size <= limit)%N /\
     (* exactly the announced number of bytes came from the image *)
     (size = 0 \/ lenN img = size)%N /\
     dread (io_disk st') 0 (N.to_nat size) = firstn (N.to_nat size) img /\
     (* and all of it was flushed: it survives any later power loss *)
     forall d', crash_at (List.length (io_trace st')) ss d0 (io_trace st') d' -> forall p, d' p = io_disk st' p).
Proof.
  intros fuel o dsz ss limit img size d0 r st' H. unfold copy_to_dev in H.
  destruct (sys_ok o _) as [ok1 st1] eqn:E1. apply sys_ok_spec in E1 as [D1 T1]. cbn in D1, T1.
  assert (N0 : forall rr, rr <> Done tt -> (rr, st1) = (r, st') -> same_outside 0 size d0 (io_disk st') /\ (r = Done tt -> False)).
  { intros rr ND E. injection E as <- <-. split; [intros p _; now rewrite D1|exact ND]. }
  destruct ok1; cbn [negb] in H; [|destruct (N0 Failed ltac:(discriminate) H); split; tauto].
  destruct (check_image_size dsz limit size) eqn:CK; cbn [negb] in H; [|destruct (N0 Failed ltac:(discriminate) H); split; tauto].
  destruct (copy_raw_image fuel o dsz ss img size 0 0 st1) as [r6 st6] eqn:E6. apply copy_raw_spec in E6.
  destruct E6 as (tr & Tr & P & done & SH & R). cbn [N.to_nat firstn skipn] in SH. apply raw_shape_plain in SH. destruct SH as [I SH].
  rewrite T1 in Tr. cbn [app] in Tr. rewrite D1 in P. rewrite N.add_0_l in I.
  assert (SO : same_outside 0 size d0 (io_disk st6)).
  { intros p Hp. rewrite P. eapply tr_in_play; eassumption. }
  destruct r6 as [[]| |].
  2,3: injection H as <- <-; split; [exact SO|discriminate].
  destruct (sys_ok o st6) as [ok7 st7] eqn:E7. apply sys_ok_spec in E7 as [D7 T7]. injection H as <- <-. rewrite D7, T7.
  split; [exact SO|]. intros OK. destruct (SH (R eq_refl)) as (body & E & CB & FS).
  unfold check_image_size in CK. apply andb_true_iff in CK as [K1 K2]. rewrite negb_true_iff in *. apply N.ltb_ge in K2.
  sp; auto.
  - intros L. apply N.ltb_lt in L. rewrite L in K1. cbn [andb] in K1. now apply N.ltb_ge in K1.
  - assert (LEN : N.to_nat size = List.length (firstn (N.to_nat size) img)).
    { rewrite firstn_length. unfold lenN in FS. lia. }
    rewrite LEN at 1. rewrite <- (dread_dwrite_same d0 0 (firstn (N.to_nat size) img)) at 2. apply dread_ext. intros p _.
    rewrite P, E, play_app. cbn [play]. apply (consecutive_play _ _ _ CB).
  - intros d' C p. rewrite P. rewrite Tr, E in *. transitivity (play d0 body p); [eapply crash_at_full; [exact C|reflexivity]|now rewrite play_app].
Qed.
