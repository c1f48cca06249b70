From Verif Require Import Base Slot Image Handlers SlotWrite SlotWriteSpec SlotWriteProofs SlotWriteTop SlotWriteThms SlotWriteBal.

(** ** nothing but the slot's own device is modified *)
Definition modt (tab : list (string * string)) (a : act) : option string :=
  match a with
  | ARun (prog :: args) _ out =>
      if smem prog ["mkfs.ext4"; "mkfs.vfat"; "mkfs.ubifs"; "resize2fs"; "flashcp"] then Some (last args "")
      else if String.eqb prog "flash_erase" then Some (nth 1 args "")
      else if String.eqb prog "nandwrite" then Some (nth 2 args "")
      else if String.eqb prog "tar" then Some (resolve tab (nth 3 args ""))
      else if smem prog ["casync"; "desync"] then
        Some (match out with Some d => d | None => resolve tab (last args "") end)
      else None
  | AVolUp d _ | ACopy _ d | AWrite _ d | AClear d _ _ | AWriteAt _ d _ _ _ | ASwitch d _ _ | ASwitchEmmc d _ => Some d
  | _ => None
  end.
Lemma modt_spec t a : modifies t a = modt (mounts t) a.
Proof. reflexivity. Qed.

Definition conf (ok : string -> Prop) (tab : list (string * string)) (l : hist) : Prop :=
  forall t1 a b t2, l = t1 ++ (a, b) :: t2 -> forall d, modt (mounts_from tab t1) a = Some d -> ok d.
Definition LP (ok : string -> Prop) tab (P : lang) tab' : Prop := forall l, P l -> conf ok tab l /\ mounts_from tab l = tab'.

Lemma conf_nil (ok : string -> Prop) (tab : list (string * string)) : conf ok tab [].
Proof. intros t1 a b t2 E. destruct t1; discriminate. Qed.
Lemma conf_app (ok : string -> Prop) (tab : list (string * string)) a b : conf ok tab a -> conf ok (mounts_from tab a) b -> conf ok tab (a ++ b).
Proof.
  intros A B t1 x r t2 E d M. apply split_in in E. destruct E as [(u & -> & _)|(u & -> & ->)]; [eapply A; eauto|].
  rewrite mounts_from_app in M. eapply B; eauto.
Qed.
Lemma conf_cons (ok : string -> Prop) (tab : list (string * string)) a b l : (forall d, modt tab a = Some d -> ok d) -> conf ok (mount_event tab (a, b)) l -> conf ok tab ((a, b) :: l).
Proof.
  intros A B. apply (conf_app ok tab [(a, b)] l); [|exact B]. intros t1 x r t2 E d M. destruct t1 as [|y t1]; [|destruct t1; discriminate].
  cbn [app] in E. assert (a = x) by congruence. subst x. now apply A.
Qed.
Lemma LP_one (ok : string -> Prop) (tab : list (string * string)) a : inert a -> (forall d, modt tab a = Some d -> ok d) -> LP ok tab (one a) tab.
Proof. intros IN A l ->. split; [|apply IN]. apply conf_cons; [exact A|apply conf_nil]. Qed.
Lemma LP_cat (ok : string -> Prop) (tab : list (string * string)) (P : lang) tab1 (Q : lang) tab2 : LP ok tab P tab1 -> LP ok tab1 Q tab2 -> LP ok tab (cat P Q) tab2.
Proof.
  intros A B l (a & b & -> & HA & HB). destruct (A _ HA) as [A1 A2], (B _ HB) as [B1 B2]. rewrite mounts_from_app, A2, B2. split; [|reflexivity].
  apply conf_app; [exact A1|rewrite A2; exact B1].
Qed.
Lemma LP_eps (ok : string -> Prop) (tab : list (string * string)) : LP ok tab eps tab.
Proof. intros l ->. split; [apply conf_nil|reflexivity]. Qed.
Lemma LP_opt (ok : string -> Prop) (tab : list (string * string)) b (P : lang) : LP ok tab P tab -> LP ok tab (opt b P) tab.
Proof. destruct b; [auto|intros _; apply LP_eps]. Qed.
Definition msrc (s : slot) : string := if String.eqb (sl_type s) "jffs2" then basename (sl_device s) else sl_device s.
Lemma LP_mount (ok : string -> Prop) (tab : list (string * string)) c s : LP ok tab (L_mount c s) ((msrc s, mount_point c s) :: tab).
Proof.
  intros l HL. split; [|now apply mounted_mount]. rewrite HL. 
  apply conf_cons; [discriminate|]. apply conf_cons; [discriminate|]. apply conf_cons; [|apply conf_nil]. cbn. discriminate.
Qed.
Lemma LP_umount (ok : string -> Prop) (tab : list (string * string)) c s x : LP ok ((x, mount_point c s) :: tab) (L_umount c s) tab.
Proof.
  intros l [b ->]. split; [|unfold mounts_from; cbn [fold_left]; now rewrite mount_event_umount].
  apply conf_cons; [cbn; discriminate|]. apply conf_cons; [discriminate|apply conf_nil].
Qed.
Lemma LP_mounted (ok : string -> Prop) (tab : list (string * string)) c s (P : lang) : LP ok ((msrc s, mount_point c s) :: tab) P ((msrc s, mount_point c s) :: tab) -> LP ok tab (L_mounted c s P) tab.
Proof. intros A. unfold L_mounted. eapply LP_cat; [apply LP_mount|]. eapply LP_cat; [exact A|apply LP_umount]. Qed.
Lemma LP_hook (ok : string -> Prop) (tab : list (string * string)) c hook en cmd i s mp vars : LP ok tab (L_hook c hook en cmd i s mp vars) tab.
Proof. apply LP_opt, LP_one; [inr|cbn; discriminate]. Qed.
Lemma LP_hook_mounted (ok : string -> Prop) (tab : list (string * string)) c hook en cmd i s : LP ok tab (L_hook_mounted c hook en cmd i s) tab.
Proof. apply LP_opt, LP_mounted, LP_one; [inr|cbn; discriminate]. Qed.

Lemma last_app {A} (l : list A) x y d : last (l ++ [x; y]) d = y.
Proof. induction l as [|a l IH]; [reflexivity|]. cbn. destruct l; [reflexivity|exact IH]. Qed.
Lemma modt_casync tab c args file seed dest out :
  modt tab (casync_act c args file seed dest out) = Some (match out with Some d => d | None => resolve tab dest end).
Proof.
  unfold casync_act. set (x := match out with Some _ => "-" | None => dest end).
  assert (E : exists pre, casync_argv c args file seed x = (if wx_desync c then "desync" else "casync") :: pre ++ [file; x]).
  { unfold casync_argv. cbn [app]. exists ("extract" :: match seed with Some y => ["--seed"; y] | None => [] end ++ ["--store"; wx_store c] ++ (if wx_desync c then [] else ["--seed-output=no"]) ++ args).
    cbn [app]. rewrite <- !app_assoc. cbn [app]. rewrite <- !app_assoc. reflexivity. }
  destruct E as [pre ->]. unfold modt. rewrite last_app. destruct out; destruct (wx_desync c); reflexivity.
Qed.
Lemma inert_casync c args file seed dest out : inert (casync_act c args file seed dest out).
Proof. intros tab b. unfold casync_act, casync_argv. destruct (wx_desync c); reflexivity. Qed.

Lemma append_inj_l a : forall x y : string, append a x = append a y -> x = y.
Proof. induction a as [|ch a IH]; intros x y H; [exact H|]. cbn in H. apply IH. congruence. Qed.
Lemma mount_point_inj c s1 s2 : mount_point c s1 = mount_point c s2 -> sl_name s1 = sl_name s2.
Proof. unfold mount_point. intros H. apply append_inj_l in H. cbn in H. congruence. Qed.

Lemma ev_exists tab p b : mount_event tab (AExists p, b) = tab. Proof. reflexivity. Qed.
Lemma ev_mkdir tab p b : mount_event tab (AMkdir p, b) = tab. Proof. reflexivity. Qed.
Lemma ev_rmdir tab p b : mount_event tab (ARmdir p, b) = tab. Proof. reflexivity. Qed.
(** writing to the slot's mount point, or directly to its device without a directory as source *)
Lemma LP_casync (ok : string -> Prop) (tab : list (string * string)) c i file dest out s :
  ok (match out with Some d => d | None => resolve tab dest end) ->
  (has_suffix ".caidx" file = true -> dest = mount_point c s) ->
  LP ok tab (L_casync (sl_name s) c i file dest out) tab.
Proof.
  intros OK MP l HL.
  assert (A : forall args seed d, modt tab (casync_act c args file seed dest out) = Some d -> ok d) by (intros args seed d; rewrite modt_casync; intros X; injection X as X; now rewrite <- X).
  destruct HL.
  - split; [apply conf_cons; [apply A|apply conf_nil]|apply inert_casync].
  - split; [apply conf_cons; [discriminate|apply conf_cons; [apply A|apply conf_nil]]|]. unfold mounts_from. cbn [fold_left]. now rewrite inert_casync.
  - assert (RS : resolve ((msrc sd, mount_point c sd) :: tab) dest = resolve tab dest).
    { unfold resolve. cbn [find snd]. rewrite (MP H1). destruct (String.eqb_spec (mount_point c sd) (mount_point c s)) as [X|X]; [|reflexivity].
      apply mount_point_inj in X. congruence. }
    split.
    + apply conf_cons; [discriminate|]. apply conf_cons; [discriminate|]. apply conf_cons; [cbn; discriminate|]. rewrite ev_exists, ev_mkdir, mount_event_mount. apply conf_cons.
      * intros d. rewrite modt_casync. fold (msrc sd). rewrite RS. intros X. injection X as X. now rewrite <- X.
      * apply conf_cons; [cbn; discriminate|]. apply conf_cons; [discriminate|apply conf_nil].
    + unfold mounts_from. cbn [fold_left]. rewrite ev_exists, ev_mkdir, mount_event_mount, inert_casync, mount_event_umount. reflexivity.
  - split; [apply conf_cons; [discriminate|apply conf_cons; [apply A|apply conf_nil]]|]. unfold mounts_from. cbn [fold_left]. now rewrite inert_casync.
  - split; [repeat (apply conf_cons; [discriminate|]); apply conf_cons; [apply A|apply conf_nil]|]. unfold mounts_from. cbn [fold_left]. now rewrite inert_casync.
  - split.
    + apply conf_cons; [discriminate|]. apply conf_cons; [discriminate|]. apply conf_cons; [cbn; discriminate|]. apply conf_cons; [discriminate|].
      apply conf_cons; [|apply conf_nil]. rewrite ev_exists, ev_mkdir, mount_event_mount_f, ev_rmdir. apply A.
    + unfold mounts_from. cbn [fold_left]. rewrite inert_casync, ev_exists, ev_mkdir, mount_event_mount_f, ev_rmdir. reflexivity.
Qed.

(** ** the handlers *)
Definition own (s : slot) (d : string) : Prop := d = sl_device s \/ sl_type s = "jffs2" /\ d = basename (sl_device s).
Lemma own_dev s : own s (sl_device s). Proof. now left. Qed.
Lemma own_msrc s : own s (msrc s).
Proof. unfold msrc. destruct (String.eqb_spec (sl_type s) "jffs2") as [E|E]; [right; auto|now left]. Qed.
Lemma resolve_head x p tab : resolve ((x, p) :: tab) p = x.
Proof. unfold resolve. cbn. now rewrite String.eqb_refl. Qed.
Lemma resolve_nil p : resolve [] p = p. Proof. reflexivity. Qed.

Lemma modt_dev tab a dev : modt tab a = Some dev -> forall (ok : string -> Prop), ok dev -> forall d, modt tab a = Some d -> ok d.
Proof. intros E ok H d X. assert (d = dev) by congruence. now subst. Qed.

Lemma LP_unpack tab c i file s : LP (own s) ((msrc s, mount_point c s) :: tab) (L_unpack c i file s) ((msrc s, mount_point c s) :: tab).
Proof.
  unfold L_unpack. destruct (_ || _).
  - apply LP_casync; [rewrite resolve_head; apply own_msrc|auto].
  - apply LP_one; [inr|]. eapply modt_dev; [reflexivity|]. cbn [nth]. rewrite resolve_head. apply own_msrc.
Qed.
Lemma LP_write c i file s : LP (own s) [] (L_write c i file s) [].
Proof.
  unfold L_write. destruct (has_suffix ".caibx" file) eqn:E.
  - apply LP_casync; [apply own_dev|]. intros X. destruct (caibx_not_caidx _ E X).
  - apply LP_one; [inr|]. eapply modt_dev; [reflexivity|apply own_dev].
Qed.
Lemma LP_dev (ok : string -> Prop) (tab : list (string * string)) a d : inert a -> modt tab a = Some d -> ok d -> LP ok tab (one a) tab.
Proof. intros A B C. apply LP_one; [exact A|]. eapply modt_dev; eauto. Qed.
Lemma LP_none (ok : string -> Prop) (tab : list (string * string)) a : inert a -> modt tab a = None -> LP ok tab (one a) tab.
Proof. intros A B. apply LP_one; [exact A|]. congruence. Qed.
Lemma LP_ubi c i file s : LP (own s) [] (L_ubi c i file s) [].
Proof.
  unfold L_ubi. eapply LP_cat; [apply LP_none; [inr|reflexivity]|]. eapply LP_cat; [eapply LP_dev; [inr|reflexivity|apply own_dev]|].
  eapply LP_cat; [|apply LP_none; [inr|reflexivity]]. destruct (has_suffix ".caibx" file) eqn:E; [|eapply LP_dev; [inr|reflexivity|apply own_dev]].
  apply LP_casync; [apply own_dev|]. intros X. destruct (caibx_not_caidx _ E X).
Qed.
Lemma LP_fill c hook empty i file s : LP (own s) [] (L_fill c hook empty i file s) [].
Proof.
  unfold L_fill. apply LP_mounted. eapply LP_cat; [|apply LP_hook]. destruct empty; [apply LP_eps|apply LP_unpack].
Qed.
Lemma last_snoc {A} (l : list A) y d : last (l ++ [y]) d = y.
Proof. induction l as [|a l IH]; [reflexivity|]. cbn. destruct l; [reflexivity|exact IH]. Qed.
Lemma modt_mkfs prog pre dev tab : smem prog ["mkfs.ext4"; "mkfs.vfat"; "mkfs.ubifs"; "resize2fs"; "flashcp"] = true ->
  modt tab (ARun (prog :: pre ++ [dev]) None None) = Some dev.
Proof. intros H. unfold modt. rewrite H. now rewrite last_snoc. Qed.
Lemma modt_ext4 c s : modt [] (ARun (mkfs_ext4_argv c s) None None) = Some (sl_device s).
Proof.
  unfold mkfs_ext4_argv. rewrite <- app_comm_cons. rewrite !app_assoc. apply modt_mkfs. reflexivity.
Qed.
Lemma modt_vfat c s : modt [] (ARun (mkfs_vfat_argv c s) None None) = Some (sl_device s).
Proof. unfold mkfs_vfat_argv. rewrite <- app_comm_cons. rewrite !app_assoc. apply modt_mkfs. reflexivity. Qed.
Lemma modt_ubifs c s : modt [] (ARun (mkfs_ubifs_argv c s) None None) = Some (sl_device s).
Proof. unfold mkfs_ubifs_argv. rewrite <- app_comm_cons. rewrite !app_assoc. apply modt_mkfs. reflexivity. Qed.

Definition aim (h : handler) (c : wctx) (s : slot) (d : string) : Prop :=
  match h with H_boot_emmc => d = sl_device (emmc_part c s) | _ => own s d end.
Ltac lp := first [apply LP_hook|apply LP_hook_mounted|apply LP_write|apply LP_ubi|apply LP_fill|apply LP_eps
  |(eapply LP_dev; [inr|first [apply modt_ext4|apply modt_vfat|apply modt_ubifs|reflexivity]|first [apply own_dev|reflexivity]])
  |(apply LP_none; [inr|reflexivity])].
Ltac lpc := repeat (eapply LP_cat; [lp|]); lp.
Lemma LP_area s file start half : LP (own s) [] (L_area s file start half) [].
Proof. unfold L_area. lpc. Qed.
Lemma LP_handler h c hook i s : LP (aim h c s) [] (L_handler h c hook i s) [].
Proof.
  destruct h; cbn [L_handler]; unfold aim; try solve [lpc].
  - eapply LP_cat; [lp|]. eapply LP_cat; [lp|]. eapply LP_cat; [apply LP_opt|]; lp.
  - eapply LP_cat; lpc.
  - destruct (wx_clear c) as [[|]|]; (eapply LP_cat; [lp|]); (eapply LP_cat; [apply LP_area|]); (eapply LP_cat; [apply LP_area|lp]).
Qed.

Lemma c58_aim h o c hook i s mp r w' : mp (sl_name s) = None -> slot_handler h o c hook i s (mkWst [] mp) = (r, w') ->
  forall t1 a b t2, ws_tr w' = t1 ++ (a, b) :: t2 -> forall d, modifies t1 a = Some d -> aim h c s d.
Proof.
  intros M E. apply run_facts in E; [|exact M].
  assert (A : forall l, L_handler h c hook i s l -> along (fun t a => forall d, modifies t a = Some d -> aim h c s d) l).
  { intros l HL t1 a b t2 X d. rewrite modt_spec. destruct (LP_handler h c hook i s l HL) as [CF _]. eapply CF; eauto. }
  assert (B : along (fun t a => forall d, modifies t a = Some d -> aim h c s d) (ws_tr w')).
  { destruct r; [now apply A|]. eapply cut_along; [exact A| |exact E]. intros t a CL d MD. exfalso.
    apply cleanup_not in CL. destruct CL as [CL _]. unfold modifying in CL. assert (Y : modifies [] a <> None).
    { intros N. rewrite modt_spec in MD, N. destruct a as [[|p args] ? out| | | | | | | | | | | | | | |]; try discriminate. unfold modt in MD, N.
      repeat (match type of N with context [if ?x then _ else _] => destruct x; try discriminate end). }
    destruct (modifies [] a); [discriminate|congruence]. }
  intros t1 a b t2 X d. now apply (B t1 a b t2).
Qed.

Lemma inactive_cases c : print_num 10 (N.of_nat (emmc_inactive c)) = if Nat.eqb (emmc_inactive c) 0 then "0" else "1".
Proof.
  unfold emmc_inactive. set (n := match wx_bp c with Some (Some a) => a | _ => 1%nat end). 
  assert (H : (Nat.modulo (n + 1) 2 < 2)%nat) by (apply Nat.mod_upper_bound; discriminate). destruct (Nat.modulo (n + 1) 2) as [|[|k]]; [reflexivity|reflexivity|lia].
Qed.
Lemma c58_confined_ok : forall h o c hook i s mp r w',
  mp (sl_name s) = None -> slot_handler h o c hook i s (mkWst [] mp) = (r, w') ->
  forall t1 a b t2 d, ws_tr w' = t1 ++ (a, b) :: t2 -> modifies t1 a = Some d ->
    match h with
    | H_boot_emmc => exists dev, wx_realdev c = Some dev /\
        ((d = (dev ++ "boot0")%string /\ wx_bp c <> Some (Some 0%nat)) \/ (d = (dev ++ "boot1")%string /\ wx_bp c <> Some (Some 1%nat)))
    | _ => d = sl_device s \/ sl_type s = "jffs2" /\ d = basename (sl_device s)
    end.
Proof.
  intros h o c hook i s mp r w' M E t1 a b t2 d X MD. pose proof (c58_aim _ _ _ _ _ _ _ _ _ M E _ _ _ _ X _ MD) as A.
  destruct h; try exact A. unfold aim in A. cbn [emmc_part sl_device] in A. unfold emmc_dev in A. cbn [slot_handler] in E. unfold img_to_boot_emmc in E.
  assert (ABS : refuse (mkWst [] mp) = (r, w') -> False).
  { unfold refuse. intros Y. assert (w' = mkWst [] mp) by congruence. subst w'. cbn in X. destruct t1; discriminate. }
  destruct (wx_realdev c) as [dev|] eqn:RD; [|contradiction]. destruct (wx_bp c) as [bp|] eqn:BP; [|contradiction]. clear E.
  exists dev. split; [reflexivity|]. cbn [getopt] in A. rewrite inactive_cases in A. unfold emmc_inactive in A. rewrite BP in A.
  destruct bp as [[|[|n]]|]; cbn in A.
  - right. split; [exact A|discriminate].
  - left. split; [exact A|discriminate].
  - destruct (Nat.eqb _ _); [left|right]; (split; [exact A|discriminate]).
  - left. split; [exact A|discriminate].
Qed.
