(** Proofs for C84, continued. *)
From Coq Require Import Permutation.
From Verif Require Import Base BaseLemmas KeyFile Image Manifest StatusFile ShellOut ShellOutSpec ShellOutE2E Json JsonSpec JsonSaysSpec JsonProofs JsonSays.
From Verif Require DbusInstall DbusInstallSpec DbusInstallProofs LogText LogTextSpec LogTextProofs.
Open Scope string_scope.

(** ** json-2 *)
Lemma told_of p v o : DbusInstallSpec.keys_unique v -> DbusInstallSpec.at_path p v = DbusInstallSpec.str_opt o -> told (of_gvariant v) p o.
Proof.
  intros U H. destruct o as [s |]; cbn [DbusInstallSpec.str_opt] in H; cbn [told].
  - exact (proj1 (path_some p v _ U H)).
  - intros x. exact (path_none p v x U H).
Qed.
Lemma has_of d k r : DbusInstallSpec.keys_unique (DbusInstall.GD d) -> DbusInstallSpec.at_path [k] (DbusInstall.GD d) = r ->
  match r with Some g => has (of_gvariant (DbusInstall.GD d)) k (of_gvariant g) | None => has_not (of_gvariant (DbusInstall.GD d)) k end.
Proof.
  intros [N _] <-. cbn [DbusInstallSpec.at_path]. rewrite (of_gd d N). assert (H := has_assoc d k N). destruct (assoc k d); exact H.
Qed.
Lemma has_of_str d k o : DbusInstallSpec.keys_unique (DbusInstall.GD d) -> DbusInstallSpec.at_path [k] (DbusInstall.GD d) = DbusInstallSpec.str_opt o ->
  has_opt (of_gvariant (DbusInstall.GD d)) k o.
Proof. intros U H. apply (has_of d k _ U) in H. destruct o; exact H. Qed.
Lemma has_of_list d k l : DbusInstallSpec.keys_unique (DbusInstall.GD d) -> DbusInstallSpec.at_path [k] (DbusInstall.GD d) = DbusInstallSpec.list_opt l ->
  has_list (of_gvariant (DbusInstall.GD d)) k l.
Proof. intros U H. apply (has_of d k _ U) in H. destruct l; exact H. Qed.
Lemma image_told2_ok i : image_told2 i (of_gvariant (DbusInstall.image_dict i)).
Proof.
  assert (U := DbusInstallProofs.image_keys i). destruct (DbusInstallProofs.image_says_ok i) as (S1 & S2 & S3 & S4 & S5 & S6 & S7 & _ & _ & S9 & S10 & S11).
  assert (S8 : DbusInstallSpec.at_path ["hooks"] (DbusInstall.image_dict i) =
    Some (DbusInstall.GL (map fst (filter snd [("pre-install", im_pre i); ("install", im_install i); ("post-install", im_post i)])))).
  { unfold DbusInstall.image_dict. cbn [DbusInstallSpec.at_path]. DbusInstallProofs.look. destruct (im_pre i), (im_install i), (im_post i); reflexivity. }
  unfold DbusInstall.image_dict in *.
  unfold image_told2. split; [exact (has_of _ _ _ U S1) |]. do 5 (split; [apply has_of_str; assumption |]).
  split; [| split; [exact (has_of _ _ _ U S8) | split; [| split]]; apply has_of_list; assumption].
  intros H. specialize (S7 H). apply (has_of _ _ _ U) in S7. cbn [of_gvariant] in S7.
  replace (to_goffset (Z.to_N (im_size i))) with (im_size i) in S7; [exact S7 |].
  unfold to_goffset. destruct (N.ltb_spec (Z.to_N (im_size i)) (2 ^ 63)); lia.
Qed.
Lemma c84_info2_ok : forall gen m hash, honest gen -> DbusInstallSpec.meta_ok m ->
  exists v l, json_read (info_text2 gen m hash) = Some v /\
  told v ["manifest-hash"] hash /\
  told v ["update"; "compatible"] (mf_compatible m) /\ told v ["update"; "version"] (mf_version m) /\
  told v ["update"; "description"] (mf_description m) /\ told v ["update"; "build"] (mf_build m) /\
  has_at v ["bundle"; "format"] (JStr (match mf_format m with F_PLAIN => "plain" | F_VERITY => "verity" | F_CRYPT => "crypt" end)) /\
  told v ["bundle"; "verity-hash"] (mf_verity_hash m) /\ told v ["bundle"; "verity-salt"] (mf_verity_salt m) /\
  told v ["hooks"; "filename"] (mf_hook m) /\
  (mf_hook m <> None -> has_at v ["hooks"; "hooks"] (set_flags [("install-check", mf_install_check m)])) /\
  told v ["handler"; "filename"] (mf_handler m) /\ (mf_handler m <> None -> told v ["handler"; "args"] (mf_handler_args m)) /\
  has_at v ["images"] (JArr l) /\ Forall2 image_told2 (mf_images m) l /\
  (forall g k, told v ["meta"; g; k] (match assoc g (mf_meta m) with Some d => assoc k d | None => None end)).
Proof.
  intros gen m hash H M. destruct (DbusInstallProofs.c69_inspect_ok m hash _ eq_refl) as (A1 & A2 & A3 & A4 & A5 & A6 & A7 & A8 & _ & A10 & A11 & A12 & A13 & _ & A15 & A16).
  specialize (A16 M). set (v := DbusInstall.GD (DbusInstall.manifest_dict m hash)) in *.
  assert (A14 : DbusInstallSpec.at_path ["images"] v = Some (DbusInstall.GA (map DbusInstall.image_dict (mf_images m)))).
  { unfold v, DbusInstall.manifest_dict. cbn [DbusInstallSpec.at_path]. DbusInstallProofs.look2. reflexivity. }
  exists (of_gvariant v), (map of_gvariant (map DbusInstall.image_dict (mf_images m))).
  split; [apply read_line, H |].
  do 5 (split; [apply told_of; assumption |]). split; [exact (proj1 (path_some _ _ _ A16 A6)) |].
  do 3 (split; [apply told_of; assumption |]).
  split; [intros Q; specialize (A11 Q); apply (path_some _ _ _ A16) in A11; destruct A11 as [A11 _]; destruct (mf_install_check m); exact A11 |].
  split; [apply told_of; assumption |]. split; [intros Q; apply told_of; [assumption | exact (A13 Q)] |].
  split; [exact (proj1 (path_some _ _ _ A16 A14)) |]. split.
  - clear. induction (mf_images m) as [| i r IH]; cbn [map]; constructor; [apply image_told2_ok | exact IH].
  - intros g k. apply told_of; [assumption |]. rewrite A15. destruct (assoc g (mf_meta m)); reflexivity.
Qed.

(** ** status *)
Lemma state_told_ok T (i : iso T) r : state_told i r (state_json i r).
Proof.
  unfold state_json. set (B := jobj (("compatible", _) :: _)).
  assert (HB : has B "compatible" (str_or_null (rs_compatible r)) /\ has_opt B "version" (rs_version r) /\
     has_opt B "description" (rs_description r) /\ has_opt B "build" (rs_build r) /\ has_opt B "hash" (rs_hash r)).
  { unfold B. change str_or_null with jopt. destruct (rs_version r), (rs_description r), (rs_build r), (rs_hash r); cbn [app]; repeat split; hh. }
  clearbody B. unfold state_told. split; [exists B; split; [| exact HB] |].
  - destruct (rs_digest r), (rs_installed r), (rs_activated r), (rs_status r); cbn [app]; hh.
  - destruct (rs_digest r), (rs_installed r), (rs_activated r), (rs_status r); cbn [app has_opt]; repeat split;
      first [hh | eexists; split; [hh | cbn [has_at]]; eexists; split; [hh | reflexivity]].
Qed.
Lemma sstate_known s : s <> ST_UNKNOWN -> sstate_str s = Ok (state_text s).
Proof. destruct s; [contradiction | reflexivity ..]. Qed.
Lemma slot_told_ok T (i : iso T) det s : v_state s <> ST_UNKNOWN ->
  exists j, slot_json i det s = Ok j /\ slot_told i s (v_mount s) (if det then v_status s else None) j.
Proof.
  intros H. unfold slot_json. rewrite (sstate_known _ H). cbn [bind]. eexists. split; [reflexivity |].
  unfold slot_told. eexists. split; [reflexivity |]. change str_or_null with jopt.
  destruct (if det then v_status s else None) as [r |]; cbn [app]; repeat (split; [hh |]); [| hh].
  exists (state_json i r). split; [hh | apply state_told_ok].
Qed.
Lemma slots_told_ok T (i : iso T) det l : (forall s, In s l -> v_state s <> ST_UNKNOWN) ->
  exists js, slots_json i det l = Ok js /\ Forall2 (fun s j => slot_told i s (v_mount s) (if det then v_status s else None) j) l js.
Proof.
  induction l as [| s r IH]; intros H; [exists []; split; [reflexivity | constructor] |].
  destruct (slot_told_ok T i det s (H s (or_introl eq_refl))) as (j & E & J). destruct (IH (fun x Hx => H x (or_intror Hx))) as (js & E2 & J2).
  exists (j :: js). cbn [slots_json]. rewrite E. cbn [bind]. rewrite E2. split; [reflexivity | constructor; assumption].
Qed.
Lemma arts_told l : Forall2 artifact_told l (map art_json l).
Proof.
  induction l as [| a r IH]; constructor; [| exact IH]. split; [hh |]. exists (map inst_json (aa_insts a)). split; [hh |].
  induction (aa_insts a) as [| x l IH2]; constructor; [split; hh | exact IH2].
Qed.
Lemma repos_told l : Forall2 repo_told l (map repo_json l).
Proof.
  induction l as [| x r IH]; constructor; [| exact IH]. unfold repo_told, repo_json.
  assert (A := arts_told (ar_arts x)). set (L := map art_json (ar_arts x)) in *. clearbody L.
  destruct (ar_path x), (ar_type x), (ar_parent x); cbn [app has_opt]; repeat (split; [hh |]); (exists L; split; [hh | exact A]).
Qed.
Lemma chomp_brace s : chomp (s ++ "}") = s ++ "}".
Proof. apply chomp_clean_tail; [discriminate | reflexivity]. Qed.
Lemma read_chomped gen p l : honest gen -> json_read (chomp (gen p (JObj l)) ++ LogText.nl) = Some (JObj l).
Proof. intros H. destruct (h_ends gen H p l) as [t E]. assert (C : chomp (gen p (JObj l)) = gen p (JObj l)) by (rewrite E; exact (chomp_brace ("{" ++ t))). rewrite C. apply read_line, H. Qed.
Lemma c84_status_ok : forall (T : Type) (i : iso T) gen pretty det c, honest gen ->
  (forall s, In s (c_slots c) -> v_state s <> ST_UNKNOWN) ->
  exists text v l r, status_text gen i pretty det c = Ok text /\ json_read text = Some v /\
  has v "compatible" (str_or_null (c_compatible c)) /\ has v "variant" (str_or_null (c_variant c)) /\
  has v "system_version" (str_or_null (c_version c)) /\ has v "booted" (str_or_null (c_bootslot c)) /\
  has v "boot_primary" (str_or_null (c_primary c)) /\
  has v "slots" (JArr l) /\ Forall2 (fun s j => slot_told i s (v_mount s) (if det then v_status s else None) j) (c_slots c) l /\
  has v "artifact-repositories" (JArr r) /\ Forall2 repo_told (c_repos c) r.
Proof.
  intros T i gen pretty det c H K. destruct (slots_told_ok T i det (c_slots c) K) as (l & E & L).
  unfold status_text, status_json. rewrite E. cbn [bind]. eexists. exists (jobj [("compatible", jopt (c_compatible c)); ("variant", jopt (c_variant c)); ("system_version", jopt (c_version c));
            ("booted", jopt (c_bootslot c)); ("boot_primary", jopt (c_primary c)); ("slots", JArr l);
            ("artifact-repositories", JArr (map repo_json (c_repos c)))]), l, (map repo_json (c_repos c)).
  split; [reflexivity |]. split; [apply read_chomped, H |]. change str_or_null with jopt. repeat (split; [first [hh | exact L] |]). apply repos_told.
Qed.
Lemma c84_status_aborts_ok : forall (T : Type) (i : iso T) gen pretty det c,
  (exists s, In s (c_slots c) /\ v_state s = ST_UNKNOWN) -> status_text gen i pretty det c = Abort.
Proof.
  intros T i gen pretty det c (s & Hs & U). unfold status_text, status_json.
  assert (E : slots_json i det (c_slots c) = Abort); [| rewrite E; reflexivity].
  induction (c_slots c) as [| x r IH]; [destruct Hs |]. cbn [slots_json]. destruct Hs as [-> | Hs].
  - unfold slot_json. rewrite U. reflexivity.
  - rewrite (IH Hs). unfold slot_json. destruct (v_state x); reflexivity.
Qed.
Lemma c84_end_to_end_ok : forall (T : Type) (i : iso T) gen pretty det compatible variant version bootslot primary (slots : list (vslot T * rstat T)) repos order,
  honest gen -> service_ok i slots -> (forall l, Permutation l (order l)) ->
  exists c text v l r sl, via_dbus i det compatible variant version bootslot primary slots repos order = Ok c /\
  status_text gen i pretty det c = Ok text /\ json_read text = Some v /\
  has v "compatible" (JStr (or_empty compatible)) /\ has v "variant" (JStr (or_empty variant)) /\
  has v "system_version" (JStr (or_empty version)) /\ has v "booted" (JStr (or_empty bootslot)) /\
  (forall p, primary = Some p -> In p (map (fun sr => v_name (fst sr)) slots) -> has v "boot_primary" (JStr p)) /\
  (primary = None -> has v "boot_primary" JNull) /\
  has v "slots" (JArr l) /\ Permutation slots sl /\
  Forall2 (fun sr j => slot_told i (fst sr) (match v_mount (fst sr) with Some x => Some x | None => v_ext_mount (fst sr) end)
                         (if det then Some (received (snd sr)) else None) j) sl l /\
  has v "artifact-repositories" (JArr r) /\ Forall2 repo_told repos r.
Proof.
  intros T i gen pretty det compatible variant version bootslot primary slots repos order H SO O. pose proof SO as (ND & A & P).
  rewrite (via_dbus_eq T i det compatible variant version bootslot primary slots repos order SO O).
  set (pri := match primary with Some p => _ | None => None end).
  assert (PL := O (map (as_seen det) slots)). set (L := order (map (as_seen det) slots)) in *.
  destruct (c84_status_ok T i gen pretty det (mkC (dbus_prop compatible) (dbus_prop variant) (dbus_prop version) (dbus_prop bootslot) pri L repos) H) as (text & v & l & r & T1 & T2 & T3 & T4 & T5 & T6 & T7 & T8 & T9 & T10 & T11).
  { cbn [c_slots]. intros s Hs. apply (Permutation_in _ (Permutation_sym PL)) in Hs. apply in_map_iff in Hs as ([s' r'] & <- & Hs). exact (proj1 (A s' r' Hs)). }
  cbn [c_compatible c_variant c_version c_bootslot c_primary c_slots c_repos] in *.
  destruct (Permutation_map_inv _ _ (Permutation_sym PL)) as (sl & EL & PS).
  eexists. exists text, v, l, r, sl. split; [reflexivity |]. split; [exact T1 |]. split; [exact T2 |].
  split; [exact T3 |]. split; [exact T4 |]. split; [exact T5 |]. split; [exact T6 |]. split; [| split; [| split; [exact T8 | split; [exact PS | split; [| split; [exact T10 | exact T11]]]]]].
  - intros p Ep Hp. unfold pri in T7. rewrite Ep in T7. destruct (existsb (fun s => String.eqb p (v_name s)) L) eqn:X; [exact T7 |]. exfalso.
    rewrite <- not_true_iff_false in X. apply X, existsb_exists. apply in_map_iff in Hp as (sr & <- & Hp). exists (as_seen det sr).
    split; [apply (Permutation_in _ PL); apply in_map; exact Hp | apply String.eqb_refl].
  - intros ->. exact T7.
  - rewrite EL in T9. clear - T9. revert l T9. induction sl as [| sr sl IH]; intros l T9; cbn [map] in T9; inversion T9 as [| x y a b H1 H2]; subst; constructor; [| exact (IH _ H2)].
    destruct sr as [s q]. unfold as_seen in H1. cbn [fst snd v_mount v_status] in *. unfold slot_told in *. cbn [v_name v_class v_device v_type v_bootname v_state v_parent v_boot] in H1.
    destruct H1 as (d & D1 & D2 & D3 & D4 & D5 & D6 & D7 & D8 & D9 & D10). exists d. repeat (split; [assumption |]).
    split; [destruct (v_bootname s); exact D9 |]. destruct det; exact D10.
Qed.

(** ** the event log *)
Lemma message_says e : LogTextSpec.line_says e (LogText.message e).
Proof.
  destruct e as [t|t x m|s b h|s b|s b|ty x]; cbn [LogText.message LogTextSpec.line_says]; try reflexivity.
  - exists (stake 8 t). split; [apply LogTextProofs.stake_short | reflexivity].
  - exists (stake 8 t). split; [apply LogTextProofs.stake_short | destruct x; reflexivity].
Qed.
Lemma event_told_ok ts e : event_told ts e (event_json ts e).
Proof.
  assert (M : LogTextSpec.line_says e (LogText.message e)) by (apply message_says).
  unfold event_json. destruct e; cbn [LogText.fields map fst snd]; (split; [hh |]); (split; [eexists; split; [hh | exact M] |]); try destruct m; repeat split; hh.
Qed.
Lemma c84_log_ok : forall gen p l, honest gen ->
  exists vs, json_stream (json_log gen p l) = Some vs /\ Forall2 (fun x v => event_told (fst x) (snd x) v) l vs.
Proof.
  intros gen p l H. exists (map (fun x => event_json (fst x) (snd x)) l). split.
  - unfold json_stream.
    assert (V : forall x, exists m, event_json (fst x) (snd x) = JObj m) by (intros x; eexists; reflexivity).
    assert (G : forall l s n, (s = json_log gen p l \/ s = String line_break (json_log gen p l)) -> List.length l < n ->
      json_values n s = Some (map (fun x => event_json (fst x) (snd x)) l)).
    { clear l. induction l as [| x r IH]; intros s n Hs Hn; (destruct n as [| n]; [cbn [List.length] in Hn; lia |]); [destruct Hs as [-> | ->]; reflexivity |].
      cbn [List.length] in Hn. destruct (V x) as [m Em]. destruct (h_ends gen H p m) as [t Et].
      assert (K : skip_ws s = gen p (JObj m) ++ String line_break (json_log gen p r)).
      { assert (L : json_log gen p (x :: r) = gen p (JObj m) ++ String line_break (json_log gen p r)) by (rewrite <- Em; reflexivity).
        destruct Hs as [-> | ->]; rewrite L, Et; reflexivity. }
      cbn [json_values map]. rewrite K, (h_reads gen H). rewrite (IH (String line_break (json_log gen p r)) n (or_intror eq_refl)) by lia.
      rewrite Em, Et. reflexivity. }
    apply G; [left; reflexivity |]. clear G. induction l as [| x r IH]; [cbn; lia |]. destruct (V x) as [m Em]. destruct (h_ends gen H p m) as [t Et].
    assert (L : json_log gen p (x :: r) = gen p (JObj m) ++ String line_break (json_log gen p r)) by (rewrite <- Em; reflexivity).
    rewrite L, len_app. cbn [String.length List.length]. lia.
  - induction l as [| x r IH]; constructor; [apply event_told_ok | exact IH].
Qed.
Lemma c84_log_lines_ok : forall gen l, honest gen ->
  exists lines, split_on line_break (json_log gen false l) = (lines ++ [""])%list /\
  Forall2 (fun x s => exists v, json_read (s ++ String line_break "") = Some v /\ event_told (fst x) (snd x) v) l lines.
Proof.
  intros gen l H. exists (map (fun x => gen false (event_json (fst x) (snd x))) l). split.
  - induction l as [| x r IH]; [reflexivity |].
    assert (L : json_log gen false (x :: r) = gen false (event_json (fst x) (snd x)) ++ String line_break (json_log gen false r)) by reflexivity.
    rewrite L, split_on_cons by (apply (h_compact gen H)). rewrite IH. reflexivity.
  - induction l as [| x r IH]; constructor; [| exact IH]. exists (event_json (fst x) (snd x)). split; [apply (read_line gen false _ H) | apply event_told_ok].
Qed.
