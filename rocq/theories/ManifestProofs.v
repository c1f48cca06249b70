From Verif Require Import Base BaseLemmas Image Handlers KeyFile KeyFileLemmas EnvKey EnvKeyProofs Hex HexProofs Semver SemverProofs Manifest ManifestSpec.

(** ** C34: names *)
Lemma image_name_parse cls art var : target_ok cls art ->
  parse_image_name ("image." ++ cls ++ match art with Some a => "/" ++ a | None => "" end
   ++ match var with Some v => "." ++ v | None => "" end)%string = (cls, art, var).
Proof.
  intros (D & S & A). unfold parse_image_name.
  set (t := (cls ++ match art with Some a => "/" ++ a | None => "" end)%string).
  assert (Dt : no_char "." t = true).
  { unfold t. rewrite no_char_app, D. destruct art as [a|]; [|reflexivity]. cbn [andb]. rewrite no_char_app, A. reflexivity. }
  replace ("image." ++ _)%string with ("image" ++ String "." (t ++ match var with Some v => "." ++ v | None => "" end))%string
    by (unfold t; rewrite !app_assoc_s; reflexivity).
  rewrite (g_strsplit_max_ne ".") by (cbn [append]; discriminate). cbn [Nat.sub]. rewrite split_max_cons by reflexivity.
  assert (E : split_max "." 1 (t ++ match var with Some v => "." ++ v | None => "" end)%string = t :: match var with Some v => [v] | None => [] end).
  { destruct var as [v|].
    - change ("." ++ v)%string with (String "." v). now rewrite split_max_cons.
    - rewrite app_nil_r_s. now rewrite split_max_word. }
  rewrite E.
  assert (V : nth_error ("image" :: t :: match var with Some v => [v] | None => [] end) 2 = var) by now destruct var.
  rewrite V. clear E V. cbn [nth].
  assert (E : exists ts, g_strsplit_max "/" 2 t = ts /\ nth 0 ts "" = cls /\ nth_error ts 1 = art).
  { eexists; split; [reflexivity|]. unfold t. destruct art as [a|].
    - rewrite g_strsplit_max_ne by (destruct cls; discriminate). change ("/" ++ a)%string with (String "/" a). cbn [Nat.sub].
      rewrite split_max_cons by assumption. auto.
    - rewrite app_nil_r_s. destruct cls as [|x cls]; [auto|]. rewrite g_strsplit_max_ne by (cbn [append]; discriminate).
      cbn [Nat.sub]. rewrite split_max_word by assumption. auto. }
  destruct E as (ts & -> & -> & ->). reflexivity.
Qed.

Lemma c34_parse_ok : forall i, target_ok (im_class i) (im_artifact i) ->
  parse_image_name (image_group i) = (im_class i, im_artifact i, im_variant i).
Proof. intros i H. now apply image_name_parse. Qed.

Lemma c34_inj_ok : forall i j,
  target_ok (im_class i) (im_artifact i) -> target_ok (im_class j) (im_artifact j) ->
  image_group i = image_group j ->
  im_class i = im_class j /\ im_artifact i = im_artifact j /\ im_variant i = im_variant j.
Proof.
  intros i j Hi Hj E. apply (f_equal parse_image_name) in E. rewrite !c34_parse_ok in E by assumption.
  inversion E; auto.
Qed.

(** the other direction: every section name that can occur is generated from what it parses to *)
Lemma split_max_parts c m : forall s w r, split_max c (S m) s = w :: r -> no_char c w = true /\
  ((r = [] /\ s = w) \/ exists s', s = (w ++ String c s')%string /\ r = split_max c m s').
Proof.
  induction s as [|a s IH]; intros w r H.
  - cbn in H. inversion H; subst. auto.
  - cbn [split_max] in H. destruct (Ascii.eqb_spec a c) as [->|N].
    + injection H as <- <-. split; [reflexivity|]. right. exists s. auto.
    + cbn [split_max] in IH. 
      match type of H with match ?t with _ => _ end = _ => destruct t as [|w' ws] eqn:G end.
      * injection H as <- <-. exfalso. destruct s as [|b s]; cbn in G; [discriminate|].
        destruct (Ascii.eqb b c); [discriminate|].
        match type of G with match ?t with _ => _ end = _ => destruct t; discriminate end.
      * injection H as <- <-. destruct (IH _ _ eq_refl) as [P1 P2].
        split.
        { unfold no_char in *. cbn [all_chars]. rewrite P1. destruct (Ascii.eqb_spec a c); [contradiction|reflexivity]. }
        destruct P2 as [[-> ->]|(s' & -> & ->)]; [auto|]. right. exists s'. auto.
Qed.

Lemma c34_total_ok : forall g cls art var, has_prefix "image." g = true ->
  parse_image_name g = (cls, art, var) ->
  target_ok cls art /\
  g = ("image." ++ cls ++ match art with Some a => "/" ++ a | None => "" end
       ++ match var with Some v => "." ++ v | None => "" end)%string.
Proof.
  intros g cls art var HP H. apply has_prefix_spec in HP as [r ->]. unfold parse_image_name in H.
  change ("image." ++ r)%string with ("image" ++ String "." r)%string in *.
  rewrite (g_strsplit_max_ne ".") in H by (cbn [append]; discriminate). cbn [Nat.sub] in H. rewrite split_max_cons in H by reflexivity.
  cbn [nth nth_error] in H.
  destruct (split_max "." 1 r) as [|t vs] eqn:E.
  { destruct r as [|a r]; [discriminate|]. cbn in E. destruct (Ascii.eqb a "."); [discriminate|].
    match type of E with match ?t with _ => _ end = _ => destruct t; discriminate end. }
  destruct (split_max_parts _ _ _ _ _ E) as [Dt Ht]. cbn [nth] in H.
  assert (V : r = (t ++ match var with Some v => "." ++ v | None => "" end)%string).
  { injection H as _ _ <-. destruct Ht as [[-> ->]|(s' & -> & ->)].
    - cbn. now rewrite app_nil_r_s.
    - destruct s' as [|]; reflexivity. }
  clear E Ht.
  assert (T : target_ok cls art /\ t = (cls ++ match art with Some a => "/" ++ a | None => "" end)%string).
  { injection H as H1 H2 _. destruct t as [|a t].
    - cbn in H1, H2. subst. repeat split; auto.
    - rewrite g_strsplit_max_ne in H1, H2 by (cbn [append]; discriminate). cbn [Nat.sub] in H1, H2.
      destruct (split_max "/" 1 (String a t)) as [|w ws] eqn:E.
      { cbn in E. destruct (Ascii.eqb a "/"); [discriminate|].
        match type of E with match ?t with _ => _ end = _ => destruct t; discriminate end. }
      destruct (split_max_parts _ _ _ _ _ E) as [Dw Hw]. cbn [nth nth_error] in H1, H2. subst w.
      destruct Hw as [[-> Hw]|(s' & Hw & ->)].
      + cbn in H2. subst art. rewrite app_nil_r_s. rewrite Hw in Dt. repeat split; auto.
      + assert (art = Some s') by (destruct s'; cbn in H2; congruence). subst art.
        rewrite Hw in Dt. rewrite no_char_app in Dt. apply andb_true_iff in Dt as [D1 D2].
        unfold no_char in D2. cbn [all_chars] in D2. apply andb_true_iff in D2 as [_ D2].
        repeat split; auto. }
  destruct T as [T1 T2]. split; [exact T1|]. rewrite V, T2, !app_assoc_s. reflexivity.
Qed.

(** ** C32 *)
Definition grp (g : string) (es : group) : keyfile := match es with [] => [] | _ => [(g, es)] end.

Lemma assoc_set_last {B} g (v w : B) kf : assoc g kf = None -> assoc_set g w (kf ++ [(g, v)]) = kf ++ [(g, w)].
Proof.
  induction kf as [|[x y] kf IH]; cbn; [now rewrite String.eqb_refl|].
  destruct (String.eqb x g); [discriminate|]. intros H. now rewrite IH.
Qed.

Lemma kf_set_all_done (kf : keyfile) g es : forall done : group, assoc g kf = None -> NoDup (map fst (done ++ es)) -> done <> [] ->
  kf_set_all (kf ++ [(g, done)]) g es = kf ++ [(g, done ++ es)].
Proof.
  induction es as [|[k v] es IH]; intros done HF HN HD.
  - cbn. now rewrite app_nil_r.
  - unfold kf_set_all. cbn [fold_left fst snd].
    assert (E : kf_set (kf ++ [(g, done)]) g k v = kf ++ [(g, done ++ [(k, v)])]).
    { unfold kf_set, kf_group. rewrite (@assoc_app group), HF. cbn [assoc]. rewrite String.eqb_refl.
      rewrite (assoc_set_new k); [now apply assoc_set_last|]. apply assoc_none.
      rewrite map_app in HN. apply NoDup_remove_2 in HN. intros X. apply HN. apply in_or_app. auto. }
    rewrite E. change (fold_left _ es ?x) with (kf_set_all x g es). rewrite IH.
    + now rewrite <- app_assoc.
    + exact HF.
    + now rewrite <- app_assoc.
    + destruct done; discriminate.
Qed.

Lemma kf_set_all_fresh (kf : keyfile) g es : assoc g kf = None -> NoDup (map fst es) -> kf_set_all kf g es = kf ++ grp g es.
Proof.
  intros HF HN. destruct es as [|[k v] es]; [cbn; now rewrite app_nil_r|].
  unfold kf_set_all. cbn [fold_left fst snd].
  assert (E : kf_set kf g k v = kf ++ [(g, [(k, v)])]).
  { unfold kf_set, kf_group. rewrite HF. cbn [assoc_set]. now apply assoc_set_new. }
  rewrite E. change (fold_left _ es ?x) with (kf_set_all x g es). rewrite kf_set_all_done; auto. discriminate.
Qed.

(** optional entries with distinct keys *)
Definition ents (l : list (string * option string)) : group := flat_map (fun ko => opt1 (fst ko) (snd ko)) l.

Lemma ents_assoc l k : NoDup (map fst l) -> assoc k (ents l) = match assoc k l with Some o => o | None => None end.
Proof.
  induction l as [|[k' o] l IH]; intros HN; [reflexivity|]. inversion HN as [|? ? H1 H2]; subst. cbn [ents flat_map fst snd].
  rewrite assoc_app. change (flat_map _ l) with (ents l). rewrite (IH H2). cbn [assoc].
  destruct (String.eqb_spec k' k) as [->|N].
  - destruct o as [s|]; cbn [opt1 assoc]; [now rewrite String.eqb_refl|].
    assert (assoc k l = None) as -> by (apply assoc_none; exact H1). reflexivity.
  - destruct o as [s|]; cbn [opt1 assoc]; [|reflexivity]. destruct (String.eqb_spec k' k); [contradiction|reflexivity].
Qed.
Lemma ents_keys l k : In k (map fst (ents l)) -> In k (map fst l).
Proof.
  induction l as [|[k' o] l IH]; cbn [ents flat_map map fst snd]; [auto|].
  rewrite map_app, in_app_iff. intros [H|H]; [|right; auto]. left.
  destruct o; cbn in H; [destruct H as [H|[]]; exact H|destruct H].
Qed.
Lemma ents_nodup l : NoDup (map fst l) -> NoDup (map fst (ents l)).
Proof.
  induction l as [|[k' o] l IH]; cbn [ents flat_map map fst snd]; [auto|].
  intros H; inversion H as [|? ? H1 H2]; subst. specialize (IH H2). destruct o as [s|]; cbn [opt1 app map fst]; [|exact IH].
  constructor; [|exact IH]. intros X. apply H1. now apply ents_keys.
Qed.
Lemma kf_only_ents kf g l used : kf_group kf g = Some (ents l) \/ (kf_group kf g = None) ->
  (forall k, In k (map fst l) -> In k used) -> kf_only kf g used = true.
Proof.
  intros H HU. unfold kf_only, kf_keys. destruct H as [-> | ->]; [|reflexivity].
  apply forallb_forall. intros k Hk. apply existsb_exists. exists k. split; [|apply String.eqb_refl].
  apply HU, ents_keys, Hk.
Qed.

Definition olist (l : list string) : option string := match l with [] => None | _ => Some (list_value l) end.
Definition osz (z : Z) : option string := if (0 <=? z)%Z then Some (print_num 10 (Z.to_N z)) else None.
Definition hook_list (i : image) := (if im_pre i then ["pre-install"] else []) ++ (if im_install i then ["install"] else [])
                    ++ (if im_post i then ["post-install"] else []).
Definition image_l (i : image) : list (string * option string) :=
  [("sha256", im_digest i); ("size", osz (im_size i)); ("filename", im_filename i);
   ("type", if im_type_from_ext i then None else im_type i); ("hooks", olist (hook_list i));
   ("adaptive", olist (im_adaptive i)); ("convert", olist (im_convert i)); ("converted", olist (im_converted i))].
Lemma list1_opt1 k l : list1 k l = opt1 k (olist l).
Proof. now destruct l. Qed.
Lemma image_entries_l i : image_entries i = ents (image_l i).
Proof.
  unfold image_entries, ents, image_l. cbn [flat_map fst snd]. fold (hook_list i). rewrite !list1_opt1, app_nil_r.
  unfold osz. destruct (0 <=? im_size i)%Z; destruct (im_type_from_ext i); reflexivity.
Qed.

Ltac nodup_strings := repeat constructor; cbn [map fst In]; intuition discriminate.

Lemma image_l_nodup i : NoDup (map fst (image_l i)).
Proof. unfold image_l. nodup_strings. Qed.

Lemma value_list_olist l : Forall (fun s => no_char ";" s = true) l ->
  match olist l with Some v => value_list v | None => [] end = l.
Proof. intros H. destruct l as [|s l]; [reflexivity|]. cbn [olist]. now apply value_list_list_value. Qed.

Lemma consume_opt kf g k o : kf_get kf g k = o -> nonempty_opt o -> kf_consume_opt kf g k = o.
Proof.
  intros H N. unfold kf_consume_opt, kf_consume. rewrite H. destruct o as [[|c s]|]; [|reflexivity|reflexivity]. now destruct N.
Qed.
Lemma consume_val kf g k s : kf_get kf g k = Some s -> s <> "" -> kf_consume kf g k = CVal s.
Proof. intros H N. unfold kf_consume. rewrite H. destruct s; [congruence|reflexivity]. Qed.
Lemma consume_missing kf g k : kf_get kf g k = None -> kf_consume kf g k = CMissing.
Proof. intros H. unfold kf_consume. now rewrite H. Qed.

Lemma parse_image_ok kf i : image_ok i -> kf_group kf (image_group i) = Some (image_entries i) ->
  parse_image kf (image_group i) = Ok i.
Proof.
  intros H HG. destruct H as [Htg Hdg Hsz Hfn Hty Hls Hso]. 
  assert (G : forall k, kf_get kf (image_group i) k = match assoc k (image_l i) with Some o => o | None => None end).
  { intros k. unfold kf_get. rewrite HG, image_entries_l. apply ents_assoc, image_l_nodup. }
  unfold parse_image. rewrite c34_parse_ok by exact Htg.
  assert (Gs : kf_get kf (image_group i) "size" = osz (im_size i)) by now rewrite G.
  assert (Gh : kf_get kf (image_group i) "hooks" = olist (hook_list i)) by now rewrite G.
  assert (Gf : kf_get kf (image_group i) "filename" = im_filename i) by now rewrite G.
  assert (Gt : kf_get kf (image_group i) "type" = if im_type_from_ext i then None else im_type i) by now rewrite G.
  assert (Gd : kf_get kf (image_group i) "sha256" = im_digest i) by now rewrite G.
  assert (Ga : kf_get kf (image_group i) "adaptive" = olist (im_adaptive i)) by now rewrite G.
  assert (Gc : kf_get kf (image_group i) "convert" = olist (im_convert i)) by now rewrite G.
  assert (Gv : kf_get kf (image_group i) "converted" = olist (im_converted i)) by now rewrite G.
  clear G.
  assert (S : match kf_get kf (image_group i) "size" with
     | None => Ok (-1)%Z
     | Some v => match strtoull_all v with Some n => Ok (to_goffset n) | None => Err end
     end = Ok (im_size i)).
  { rewrite Gs. unfold osz. destruct Hsz as [-> | Hsz]; [reflexivity|].
    assert ((0 <=? im_size i)%Z = true) as -> by lia. rewrite strtoull_all_print by lia.
    unfold to_goffset. assert ((Z.to_N (im_size i) <? 2 ^ 63)%N = true) as -> by lia. now rewrite Z2N.id by lia. }
  rewrite S. cbn [bind]. clear S.
  assert (HK : parse_slot_hooks (kf_list kf (image_group i) "hooks") false false false = Some (im_pre i, im_install i, im_post i)).
  { unfold kf_list. rewrite Gh. rewrite value_list_olist.
    - unfold hook_list. destruct (im_pre i), (im_install i), (im_post i); reflexivity.
    - unfold hook_list. destruct (im_pre i), (im_install i), (im_post i); repeat constructor. }
  rewrite HK. cbn [of_option bind]. clear HK.
  assert (F : match kf_consume kf (image_group i) "filename" with
     | CVal f => Ok (Some f) | CMissing => Ok None | CEmpty => Err end = Ok (im_filename i)).
  { unfold kf_consume. rewrite Gf. destruct (im_filename i) as [[|]|]; try reflexivity. now destruct Hfn. }
  rewrite F. cbn [bind]. clear F.
  assert (T : parse_type kf (image_group i) (im_artifact i) (im_install i) (im_filename i) = Ok (im_type i, im_type_from_ext i)).
  { unfold parse_type. destruct (im_artifact i) as [a|]; [destruct Hty as [-> ->]; reflexivity|].
    destruct (im_type i) as [t|] eqn:Et.
    - destruct Hty as (Nt & Hsup & Hext). destruct (im_type_from_ext i) eqn:Ex.
      + destruct (Hext eq_refl) as (Hi & f & Ef & Ed). rewrite (consume_missing _ _ _ Gt). unfold missing_type.
        rewrite Hi, Ef, Ed. cbn [bind negb andb]. destruct Hsup as [Hsup|Hsup]; [congruence|]. now rewrite Hsup.
      + rewrite (consume_val _ _ _ _ Gt) by assumption. cbn [bind].
        destruct Hsup as [-> | ->]; [reflexivity|]. cbn [negb]. now rewrite andb_false_r.
    - destruct Hty as [Ex Hi]. rewrite Ex in Gt |- *. rewrite (consume_missing _ _ _ Gt). unfold missing_type. rewrite Hi. reflexivity. }
  rewrite T. cbn [bind]. clear T.
  assert (O : kf_only kf (image_group i) (["sha256"; "size"; "hooks"; "filename"; "version"; "description"; "build";
                    "adaptive"; "convert"; "converted"]
                   ++ match im_artifact i with None => ["type"] | Some _ => [] end) = true).
  { destruct (im_artifact i) as [a|] eqn:Ea.
    - destruct Hty as [Ht Hx].
      apply kf_only_ents with (l := filter (fun ko => negb (String.eqb (fst ko) "type")) (image_l i)).
      + left. rewrite HG, image_entries_l. f_equal. unfold ents, image_l. rewrite Ht, Hx. reflexivity.
      + unfold image_l. cbn. intuition.
    - apply kf_only_ents with (l := image_l i); [left; rewrite HG, image_entries_l; reflexivity|].
      unfold image_l. cbn. intuition. }
  rewrite O. clear O.
  apply Forall_app in Hls as [L1 L2]. apply Forall_app in L2 as [L2 L3].
  rewrite (consume_opt _ _ _ _ Gd Hdg). unfold kf_list. rewrite Ga, Gc, Gv, !value_list_olist by assumption.
  destruct i; reflexivity.
Qed.

Lemma parse_meta_ok kf g : meta_ok g -> kf_group kf ("meta." ++ fst g)%string = Some (snd g) ->
  parse_meta kf ("meta." ++ fst g)%string = Ok g.
Proof.
  intros [(L1 & L3) (K1 & K2) V] HG. unfold parse_meta. rewrite HG.
  change ("meta." ++ fst g)%string with ("meta" ++ String "." (fst g))%string.
  rewrite (g_strsplit_max_ne ".") by (cbn [append]; discriminate). cbn [Nat.sub]. rewrite split_max_cons by reflexivity.
  cbn [split_max]. rewrite L1. cbn [negb]. destruct (env_key (fst g)); [|congruence].
  assert (forallb (fun kv => negb (String.eqb (snd kv) "")
             && match env_key (fst kv) with Some _ => true | None => false end) (snd g) = true) as ->.
  { apply forallb_forall. intros kv Hk. rewrite Forall_forall in V. destruct (V _ Hk) as [V1 V2].
    apply andb_true_iff. split; [apply negb_true_iff, String.eqb_neq, V1|]. now destruct (env_key (fst kv)). }
  now destruct g.
Qed.

(** the keyfile as a concatenation of groups *)
Definition bundle_l (m : manifest) : list (string * option string) :=
  let fmt := match mf_format m with F_PLAIN => if mf_format_explicit m then Some "plain" else None
                               | F_VERITY => Some "verity" | F_CRYPT => Some "crypt" end in
  let v := [("verity-hash", mf_verity_hash m); ("verity-salt", mf_verity_salt m);
            ("verity-size", if (mf_verity_size m =? 0)%N then None else Some (print_num 10 (mf_verity_size m)))] in
  match mf_format m with
  | F_PLAIN => [("format", fmt)]
  | F_VERITY => ("format", fmt) :: v
  | F_CRYPT => ("crypt-key", mf_crypt_key m) :: ("format", fmt) :: v
  end.
Definition update_l (m : manifest) := [("compatible", mf_compatible m); ("version", mf_version m);
  ("description", mf_description m); ("build", mf_build m)].
Definition handler_l (m : manifest) := [("filename", mf_handler m); ("args", mf_handler_args m)].
Definition hooks_l (m : manifest) := [("filename", mf_hook m); ("hooks", olist (if mf_install_check m then ["install-check"] else []))].

Lemma update_entries_l m : update_entries m = ents (update_l m).
Proof. unfold update_entries, ents, update_l. cbn [flat_map fst snd]. now rewrite app_nil_r. Qed.
Lemma handler_entries_l m : handler_entries m = ents (handler_l m).
Proof. unfold handler_entries, ents, handler_l. cbn [flat_map fst snd]. now rewrite app_nil_r. Qed.
Lemma hooks_entries_l m : hooks_entries m = ents (hooks_l m).
Proof. unfold hooks_entries, ents, hooks_l. cbn [flat_map fst snd]. now rewrite app_nil_r, list1_opt1. Qed.
Lemma bundle_entries_l m : bundle_entries m = ents (bundle_l m).
Proof.
  unfold bundle_entries, ents, bundle_l, verity_entries. destruct (mf_format m); cbn [flat_map fst snd opt1]; rewrite ?app_nil_r.
  - unfold bool1. now destruct (mf_format_explicit m).
  - cbn [app]. now destruct (mf_verity_size m =? 0)%N.
  - cbn [app]. now destruct (mf_verity_size m =? 0)%N.
Qed.
Lemma bundle_l_nodup m : NoDup (map fst (bundle_l m)).
Proof. unfold bundle_l. destruct (mf_format m); nodup_strings. Qed.

Definition fixed_kf (m : manifest) : keyfile :=
  grp "update" (update_entries m) ++ grp "bundle" (bundle_entries m)
  ++ grp "handler" (handler_entries m) ++ grp "hooks" (hooks_entries m).
Definition img_kf (l : list image) : keyfile := flat_map (fun i => grp (image_group i) (image_entries i)) l.
Definition meta_kf (l : list (string * list (string * string))) : keyfile := flat_map (fun g => grp ("meta." ++ fst g) (snd g)) l.

Lemma grp_keys g es k : In k (map fst (grp g es)) -> k = g.
Proof. destruct es; cbn; intuition. Qed.
Lemma img_kf_keys l k : In k (map fst (img_kf l)) -> exists i, In i l /\ k = image_group i.
Proof.
  unfold img_kf. rewrite flat_map_concat_map. induction l as [|i l IH]; cbn; [tauto|].
  rewrite map_app, in_app_iff. intros [H|H]; [exists i; split; [auto|now apply grp_keys in H]|].
  destruct (IH H) as (j & Hj & ->). exists j; auto.
Qed.
Lemma meta_kf_keys l k : In k (map fst (meta_kf l)) -> exists g, In g l /\ k = ("meta." ++ fst g)%string.
Proof.
  unfold meta_kf. rewrite flat_map_concat_map. induction l as [|i l IH]; cbn [map List.concat]; [cbn; tauto|].
  rewrite map_app, in_app_iff. intros [H|H]; [exists i; split; [cbn; auto|now apply grp_keys in H]|].
  destruct (IH H) as (j & Hj & ->). exists j; cbn; auto.
Qed.
Lemma fixed_kf_keys m k : In k (map fst (fixed_kf m)) -> In k ["update"; "bundle"; "handler"; "hooks"].
Proof.
  unfold fixed_kf. rewrite !map_app, !in_app_iff. intros [H|[H|[H|H]]]; apply grp_keys in H; subst; cbn; tauto.
Qed.

Lemma prepare_shape m : NoDup (map image_group (mf_images m)) -> NoDup (map fst (mf_meta m)) ->
  Forall (fun g => NoDup (map fst (snd g))) (mf_meta m) ->
  prepare_manifest m = fixed_kf m ++ img_kf (mf_images m) ++ meta_kf (mf_meta m).
Proof.
  intros NI NM NK. unfold prepare_manifest.
  assert (F1 : kf_set_all (kf_set_all (kf_set_all (kf_set_all [] "update" (update_entries m)) "bundle" (bundle_entries m))
     "handler" (handler_entries m)) "hooks" (hooks_entries m) = fixed_kf m).
  { unfold fixed_kf.
    assert (NU : NoDup (map fst (update_entries m))) by (rewrite update_entries_l; apply ents_nodup; unfold update_l; nodup_strings).
    assert (NB : NoDup (map fst (bundle_entries m))) by (rewrite bundle_entries_l; apply ents_nodup, bundle_l_nodup).
    assert (NH : NoDup (map fst (handler_entries m))) by (rewrite handler_entries_l; apply ents_nodup; unfold handler_l; nodup_strings).
    assert (NO : NoDup (map fst (hooks_entries m))) by (rewrite hooks_entries_l; apply ents_nodup; unfold hooks_l; nodup_strings).
    rewrite (kf_set_all_fresh [] "update") by auto. cbn [app].
    rewrite (kf_set_all_fresh _ "bundle"); [| |exact NB].
    2: { apply assoc_none. intros X. apply grp_keys in X. discriminate. }
    rewrite (kf_set_all_fresh _ "handler"); [| |exact NH].
    2: { apply assoc_none. rewrite map_app, in_app_iff. intros [X|X]; apply grp_keys in X; discriminate. }
    rewrite (kf_set_all_fresh _ "hooks"); [| |exact NO].
    2: { apply assoc_none. rewrite !map_app, !in_app_iff. intros [[X|X]|X]; apply grp_keys in X; discriminate. }
    now rewrite <- !app_assoc. }
  cbv zeta. rewrite F1. clear F1.
  assert (FI : forall l kf, NoDup (map image_group l) -> (forall i, In i l -> assoc (image_group i) kf = None) ->
     fold_left (fun kf i => kf_set_all kf (image_group i) (image_entries i)) l kf = kf ++ img_kf l).
  { induction l as [|i l IH]; intros kf ND HF; [cbn; now rewrite app_nil_r|]. cbn [fold_left].
    inversion ND as [|? ? N1 N2]; subst. rewrite kf_set_all_fresh.
    - rewrite IH; [unfold img_kf; cbn [flat_map]; now rewrite <- app_assoc|exact N2|].
      intros j Hj. apply assoc_none. rewrite map_app, in_app_iff. intros [X|X].
      + revert X. apply assoc_none. apply HF. now right.
      + apply grp_keys in X. apply N1. rewrite <- X. now apply in_map.
    - apply HF. now left.
    - rewrite image_entries_l. apply ents_nodup, image_l_nodup. }
  rewrite FI; [|exact NI|].
  2: { intros i Hi. apply assoc_none. intros X. apply fixed_kf_keys in X. cbn in X.
       unfold image_group in X. cbn in X. intuition discriminate. }
  assert (FM : forall l kf, NoDup (map fst l) -> Forall (fun g : string * list (string * string) => NoDup (map fst (snd g))) l ->
     (forall g, In g l -> assoc ("meta." ++ fst g)%string kf = None) ->
     fold_left (fun kf gk => kf_set_all kf ("meta." ++ fst gk)%string (snd gk)) l kf = kf ++ meta_kf l).
  { induction l as [|g l IH]; intros kf ND NK' HF; [cbn; now rewrite app_nil_r|]. cbn [fold_left].
    inversion ND as [|? ? N1 N2]; inversion NK' as [|? ? K1 K2]; subst. rewrite kf_set_all_fresh.
    - rewrite IH; [unfold meta_kf; cbn [flat_map]; now rewrite <- app_assoc|exact N2|exact K2|].
      intros j Hj. apply assoc_none. rewrite map_app, in_app_iff. intros [X|X].
      + revert X. apply assoc_none. apply HF. now right.
      + apply grp_keys in X. apply app_inv_l in X. apply N1. rewrite <- X. now apply in_map.
    - apply HF. now left.
    - exact K1. }
  rewrite FM; [now rewrite <- app_assoc|exact NM|exact NK|].
  intros g Hg. apply assoc_none. rewrite map_app, in_app_iff. intros [X|X].
  - apply fixed_kf_keys in X. cbn in X. intuition discriminate.
  - apply img_kf_keys in X as (i & _ & X). unfold image_group in X. cbn in X. discriminate.
Qed.

Lemma grp_eq g es : es <> [] -> grp g es = [(g, es)].
Proof. now destruct es. Qed.

Lemma image_entries_ne i : image_ok i -> image_entries i <> [].
Proof.
  intros [Htg Hdg Hsz Hfn Hty Hls Hso]. rewrite image_entries_l. intros E.
  assert (A : forall k, match assoc k (image_l i) with Some o => o | None => None end = None).
  { intros k. rewrite <- ents_assoc by apply image_l_nodup. now rewrite E. }
  pose proof (A "filename") as A1. pose proof (A "hooks") as A2. pose proof (A "type") as A3. cbn in A1, A2, A3.
  assert (Hin : im_install i = false).
  { unfold hook_list in A2. destruct (im_pre i), (im_install i), (im_post i); cbn in A2; congruence. }
  destruct Hso as [X|[X|[X1 X2]]]; [congruence|congruence|].
  rewrite X1 in Hty. destruct (im_type i) as [t|]; [|congruence]. destruct (im_type_from_ext i); [|congruence].
  destruct Hty as (_ & _ & H). destruct (H eq_refl) as (_ & f & Ef & _). congruence.
Qed.

Lemma image_groups_nodup l : Forall image_ok l -> NoDup (map (fun i => (im_class i, im_artifact i, im_variant i)) l) ->
  NoDup (map image_group l).
Proof.
  induction l as [|i l IH]; cbn [map]; intros HF HN; [constructor|]. inversion HF; inversion HN; subst.
  constructor; [|auto]. intros X. apply in_map_iff in X as (j & E & Hj). apply H5.
  rewrite Forall_forall in H2. destruct (c34_inj_ok j i) as (E1 & E2 & E3); auto using io_target.
  apply in_map_iff. exists j. split; [congruence|exact Hj].
Qed.

Lemma parse_groups_images kf is : forall rest, Forall image_ok is ->
  (forall i, In i is -> kf_group kf (image_group i) = Some (image_entries i)) ->
  parse_groups kf (map image_group is ++ rest) = do (is', ms) <- parse_groups kf rest ;; Ok (is ++ is', ms).
Proof.
  induction is as [|i is IH]; intros rest HF HG.
  - cbn [map app]. destruct (parse_groups kf rest) as [[]| |]; reflexivity.
  - inversion HF; subst. cbn [map app parse_groups].
    assert (has_prefix "image." (image_group i) = true) as -> by (unfold image_group; apply has_prefix_app).
    rewrite parse_image_ok by (auto; apply HG; now left). cbn [bind]. rewrite IH by (auto; intros; apply HG; now right).
    destruct (parse_groups kf rest) as [[]| |]; reflexivity.
Qed.
Lemma parse_groups_metas kf ms : Forall meta_ok ms ->
  (forall g, In g ms -> kf_group kf ("meta." ++ fst g)%string = Some (snd g)) ->
  parse_groups kf (map (fun g => ("meta." ++ fst g)%string) ms) = Ok ([], ms).
Proof.
  induction ms as [|g ms IH]; intros HF HG; [reflexivity|]. inversion HF; subst. cbn [map parse_groups].
  assert (has_prefix "image." ("meta." ++ fst g) = false) as -> by reflexivity.
  assert (has_prefix "meta." ("meta." ++ fst g) = true) as -> by apply has_prefix_app.
  rewrite parse_meta_ok by (auto; apply HG; now left). cbn [bind]. rewrite IH by (auto; intros; apply HG; now right).
  reflexivity.
Qed.

Lemma img_kf_groups l : Forall image_ok l -> map fst (img_kf l) = map image_group l.
Proof.
  induction 1 as [|i l Hi Hl IH]; [reflexivity|]. unfold img_kf in *. cbn [flat_map map].
  rewrite map_app, IH, grp_eq by now apply image_entries_ne. reflexivity.
Qed.
Lemma meta_kf_groups l : Forall meta_ok l -> map fst (meta_kf l) = map (fun g => ("meta." ++ fst g)%string) l.
Proof.
  induction 1 as [|i l Hi Hl IH]; [reflexivity|]. unfold meta_kf in *. cbn [flat_map map].
  rewrite map_app, IH, grp_eq by apply mo_keys, Hi. reflexivity.
Qed.

Lemma img_kf_assoc l i : NoDup (map image_group l) -> Forall image_ok l -> In i l ->
  assoc (image_group i) (img_kf l) = Some (image_entries i).
Proof.
  induction l as [|j l IH]; intros ND HF HI; [destruct HI|]. inversion ND; inversion HF; subst.
  unfold img_kf. cbn [flat_map]. rewrite grp_eq by now apply image_entries_ne. cbn [app assoc].
  destruct HI as [->|HI]; [now rewrite String.eqb_refl|].
  destruct (String.eqb_spec (image_group j) (image_group i)) as [E|N]; [|now apply IH].
  exfalso. apply H1. rewrite E. now apply in_map.
Qed.
Lemma meta_kf_assoc l g : NoDup (map fst l) -> Forall meta_ok l -> In g l ->
  assoc ("meta." ++ fst g)%string (meta_kf l) = Some (snd g).
Proof.
  induction l as [|j l IH]; intros ND HF HI; [destruct HI|]. inversion ND; inversion HF; subst.
  unfold meta_kf. cbn [flat_map]. rewrite grp_eq by (apply mo_keys; assumption). change ([?x] ++ ?y) with (x :: y). cbn [assoc].
  destruct HI as [->|HI]; [now rewrite String.eqb_refl|].
  match goal with |- (if ?b then _ else _) = _ => destruct b eqn:E end; [|now apply IH].
  apply String.eqb_eq in E.
  exfalso. apply H1. apply app_inv_l in E. change (fst j = fst g) in E. rewrite E. now apply in_map.
Qed.

Lemma grp_assoc_l g l : kf_group (grp g (ents l)) g = Some (ents l) \/ (kf_group (grp g (ents l)) g = None /\ ents l = []).
Proof. unfold kf_group. destruct (ents l) eqn:E; cbn; [auto|]. rewrite String.eqb_refl. auto. Qed.

Lemma opt_id {A} (o : option A) : match o with Some v => Some v | None => None end = o.
Proof. now destruct o. Qed.

Lemma c32_ok : forall m, manifest_ok m -> parse_manifest (prepare_manifest m) = Ok (no_min_rauc m).
Proof.
  intros m [Hc Hs Hh Hf Hv Hk Hz Hi Hd Hm Hl].
  assert (NI := image_groups_nodup _ Hi Hd).
  assert (NK : Forall (fun g => NoDup (map fst (snd g))) (mf_meta m)).
  { eapply Forall_impl; [|exact Hm]. intros g G. apply mo_keys, G. }
  rewrite (prepare_shape m NI Hl NK). set (kf := fixed_kf m ++ img_kf (mf_images m) ++ meta_kf (mf_meta m)).
  (* lookups *)
  assert (NoDyn : forall g, In g ["update"; "bundle"; "handler"; "hooks"] ->
     assoc g (img_kf (mf_images m) ++ meta_kf (mf_meta m)) = None).
  { intros g Hg. apply assoc_none. rewrite map_app, in_app_iff. intros [X|X].
    - apply img_kf_keys in X as (i & _ & ->). unfold image_group in Hg. cbn in Hg. intuition discriminate.
    - apply meta_kf_keys in X as (i & _ & ->). cbn in Hg. intuition discriminate. }
  assert (NoG : forall g g' es, g <> g' -> assoc g (grp g' es) = None).
  { intros g g' es N. apply assoc_none. intros X. apply grp_keys in X. contradiction. }
  assert (Gu : kf_group kf "update" = kf_group (grp "update" (ents (update_l m))) "update").
  { unfold kf_group, kf, fixed_kf. rewrite !assoc_app, (NoG "update" "bundle"), (NoG "update" "handler"), (NoG "update" "hooks") by discriminate.
    pose proof (NoDyn "update" ltac:(cbn; tauto)) as D. rewrite assoc_app in D. rewrite D, update_entries_l. rewrite ?opt_id; reflexivity. }
  assert (Gb : kf_group kf "bundle" = kf_group (grp "bundle" (ents (bundle_l m))) "bundle").
  { unfold kf_group, kf, fixed_kf. rewrite !assoc_app, (NoG "bundle" "update"), (NoG "bundle" "handler"), (NoG "bundle" "hooks") by discriminate.
    pose proof (NoDyn "bundle" ltac:(cbn; tauto)) as D. rewrite assoc_app in D. rewrite D, bundle_entries_l. rewrite ?opt_id; reflexivity. }
  assert (Gh : kf_group kf "handler" = kf_group (grp "handler" (ents (handler_l m))) "handler").
  { unfold kf_group, kf, fixed_kf. rewrite !assoc_app, (NoG "handler" "update"), (NoG "handler" "bundle"), (NoG "handler" "hooks") by discriminate.
    pose proof (NoDyn "handler" ltac:(cbn; tauto)) as D. rewrite assoc_app in D. rewrite D, handler_entries_l. rewrite ?opt_id; reflexivity. }
  assert (Go : kf_group kf "hooks" = kf_group (grp "hooks" (ents (hooks_l m))) "hooks").
  { unfold kf_group, kf, fixed_kf. rewrite !assoc_app, (NoG "hooks" "update"), (NoG "hooks" "bundle"), (NoG "hooks" "handler") by discriminate.
    pose proof (NoDyn "hooks" ltac:(cbn; tauto)) as D. rewrite assoc_app in D. rewrite D, hooks_entries_l. rewrite ?opt_id; reflexivity. }
  assert (GET : forall g l k, kf_group kf g = kf_group (grp g (ents l)) g -> NoDup (map fst l) ->
     kf_get kf g k = match assoc k l with Some o => o | None => None end).
  { intros g l k E ND. unfold kf_get. rewrite E. destruct (grp_assoc_l g l) as [->|[-> E2]].
    - now apply ents_assoc.
    - rewrite <- ents_assoc by exact ND. now rewrite E2. }
  assert (ONLY : forall g l used, kf_group kf g = kf_group (grp g (ents l)) g ->
     (forall k, In k (map fst l) -> In k used) -> kf_only kf g used = true).
  { intros g l used E HU. apply kf_only_ents with (l := l); [|exact HU]. rewrite E. destruct (grp_assoc_l g l) as [->|[-> _]]; auto. }
  assert (Nu : NoDup (map fst (update_l m))) by (unfold update_l; nodup_strings).
  assert (Nh : NoDup (map fst (handler_l m))) by (unfold handler_l; nodup_strings).
  assert (No : NoDup (map fst (hooks_l m))) by (unfold hooks_l; nodup_strings).
  pose proof (bundle_l_nodup m) as Nb.
  (* the image and meta groups *)
  assert (GI : forall i, In i (mf_images m) -> kf_group kf (image_group i) = Some (image_entries i)).
  { intros i Hii. unfold kf_group, kf. rewrite assoc_app.
    assert (assoc (image_group i) (fixed_kf m) = None) as ->.
    { apply assoc_none. intros X. apply fixed_kf_keys in X. unfold image_group in X. cbn in X. intuition discriminate. }
    rewrite assoc_app, img_kf_assoc; auto. }
  assert (GM : forall g, In g (mf_meta m) -> kf_group kf ("meta." ++ fst g)%string = Some (snd g)).
  { intros g Hg. unfold kf_group, kf. rewrite assoc_app.
    assert (assoc ("meta." ++ fst g)%string (fixed_kf m) = None) as ->.
    { apply assoc_none. intros X. apply fixed_kf_keys in X. cbn in X. intuition discriminate. }
    rewrite assoc_app.
    assert (assoc ("meta." ++ fst g)%string (img_kf (mf_images m)) = None) as ->.
    { apply assoc_none. intros X. apply img_kf_keys in X as (i & _ & X). unfold image_group in X. cbn in X. discriminate. }
    now apply meta_kf_assoc. }
  assert (GS : filter (fun g => negb (existsb (String.eqb g) ["update"; "bundle"; "handler"; "hooks"])) (kf_groups kf)
     = map image_group (mf_images m) ++ map (fun g => ("meta." ++ fst g)%string) (mf_meta m)).
  { unfold kf_groups, kf. rewrite !map_app, !filter_app, img_kf_groups, meta_kf_groups by assumption.
    assert (Ffix : forall l, (forall k, In k l -> In k ["update"; "bundle"; "handler"; "hooks"]) ->
       filter (fun g => negb (existsb (String.eqb g) ["update"; "bundle"; "handler"; "hooks"])) l = []).
    { induction l as [|k l IH]; intros X; [reflexivity|]. cbn [filter].
      assert (existsb (String.eqb k) ["update"; "bundle"; "handler"; "hooks"] = true) as ->.
      { apply existsb_exists. exists k. split; [apply X; now left|apply String.eqb_refl]. }
      cbn [negb]. apply IH. intros; apply X; now right. }
    rewrite Ffix by apply fixed_kf_keys. cbn [app].
    assert (Fall : forall l, (forall k, In k l -> has_prefix "image." k || has_prefix "meta." k = true) ->
       filter (fun g => negb (existsb (String.eqb g) ["update"; "bundle"; "handler"; "hooks"])) l = l).
    { induction l as [|k l IH]; intros X; [reflexivity|]. cbn [filter].
      assert (existsb (String.eqb k) ["update"; "bundle"; "handler"; "hooks"] = false) as ->.
      { specialize (X k (or_introl eq_refl)).
        destruct (existsb _ _) eqn:E; [|reflexivity]. apply existsb_exists in E as (z & Hz' & E).
        apply String.eqb_eq in E. subst z. cbn in Hz'. intuition (subst; discriminate). }
      cbn [negb]. f_equal. apply IH. intros; apply X; now right. }
    rewrite !Fall; [reflexivity| |].
    - intros k X. apply in_map_iff in X as (g & <- & _). rewrite has_prefix_app. apply orb_true_r.
    - intros k X. apply in_map_iff in X as (i & <- & _). unfold image_group. rewrite has_prefix_app. reflexivity. }
  (* run the parser *)
  destruct Hc as (c & Ec & Nc). destruct Hs as (S1 & S2 & S3 & S4 & S5 & S6 & S7 & S8 & S9).
  unfold parse_manifest.
  assert (U1 : kf_get kf "update" "compatible" = Some c) by (rewrite (GET _ _ _ Gu Nu); cbn; exact Ec).
  rewrite (consume_val _ _ _ _ U1 Nc). cbn [bind].
  rewrite (ONLY _ _ ["compatible"; "version"; "description"; "build"; "min-rauc-version"] Gu) by (unfold update_l; cbn; tauto).
  cbn [negb].
  set (fmt := match mf_format m with F_PLAIN => if mf_format_explicit m then Some "plain" else None
                               | F_VERITY => Some "verity" | F_CRYPT => Some "crypt" end).
  assert (B1 : kf_get kf "bundle" "format" = fmt).
  { rewrite (GET _ _ _ Gb Nb). unfold bundle_l. destruct (mf_format m); reflexivity. }
  rewrite (consume_opt _ _ _ _ B1) by (unfold fmt, nonempty_opt; destruct (mf_format m), (mf_format_explicit m); discriminate).
  assert (BF : match fmt with
     | None => Ok F_PLAIN
     | Some s => if String.eqb s "plain" then Ok F_PLAIN
                       else if String.eqb s "verity" then Ok F_VERITY
                       else if String.eqb s "crypt" then Ok F_CRYPT else Err
     end = Ok (mf_format m)).
  { unfold fmt. destruct (mf_format m), (mf_format_explicit m); reflexivity. }
  rewrite BF. cbn [bind].
  rewrite (ONLY _ _ (["format"] ++ (if negb (bformat_eqb (mf_format m) F_PLAIN) then ["verity-hash"; "verity-salt"; "verity-size"] else [])
                                ++ (if bformat_eqb (mf_format m) F_CRYPT then ["crypt-key"] else [])) Gb)
    by (unfold bundle_l; destruct (mf_format m); cbn; tauto).
  cbn [negb].
  assert (H1 : kf_get kf "handler" "filename" = mf_handler m) by (rewrite (GET _ _ _ Gh Nh); reflexivity).
  assert (H2 : kf_get kf "handler" "args" = mf_handler_args m) by (rewrite (GET _ _ _ Gh Nh); reflexivity).
  rewrite (consume_opt _ _ _ _ H1 S4), (consume_opt _ _ _ _ H2 S5).
  assert (match mf_handler_args m, mf_handler m with Some _, None => true | _, _ => false end = false) as ->.
  { destruct (mf_handler_args m), (mf_handler m); try reflexivity. exfalso. apply Hh; [discriminate|reflexivity]. }
  rewrite (ONLY _ _ ["filename"; "args"] Gh) by (unfold handler_l; cbn; tauto). cbn [negb].
  assert (O1 : kf_get kf "hooks" "filename" = mf_hook m) by (rewrite (GET _ _ _ Go No); reflexivity).
  assert (O2 : kf_list kf "hooks" "hooks" = if mf_install_check m then ["install-check"] else []).
  { unfold kf_list. rewrite (GET _ _ _ Go No). cbn [assoc hooks_l String.eqb Ascii.eqb Bool.eqb].
    now destruct (mf_install_check m). }
  rewrite O2.
  assert (forallb (String.eqb "install-check") (if mf_install_check m then ["install-check"] else []) = true) as ->
    by now destruct (mf_install_check m).
  rewrite (ONLY _ _ ["filename"; "hooks"] Go) by (unfold hooks_l; cbn; tauto). cbn [negb].
  rewrite GS. rewrite parse_groups_images by assumption. rewrite parse_groups_metas by assumption. cbn [bind].
  rewrite app_nil_r.
  assert (U2 : kf_get kf "update" "version" = mf_version m) by (rewrite (GET _ _ _ Gu Nu); reflexivity).
  assert (U3 : kf_get kf "update" "description" = mf_description m) by (rewrite (GET _ _ _ Gu Nu); reflexivity).
  assert (U4 : kf_get kf "update" "build" = mf_build m) by (rewrite (GET _ _ _ Gu Nu); reflexivity).
  assert (U5 : kf_get kf "update" "min-rauc-version" = None) by (rewrite (GET _ _ _ Gu Nu); reflexivity).
  rewrite (consume_opt _ _ _ _ U2 S1), (consume_opt _ _ _ _ U3 S2), (consume_opt _ _ _ _ U4 S3), (consume_opt _ _ _ _ O1 S6).
  rewrite (consume_opt _ _ _ None U5) by discriminate.
  unfold no_min_rauc. f_equal. rewrite <- Ec. f_equal.
  - unfold fmt. destruct (mf_format m) eqn:EF; [now destruct (mf_format_explicit m)| |];
    symmetry; apply Hf; congruence.
  - destruct (mf_format m) eqn:EF; cbn [bformat_eqb negb]; [symmetry; now apply Hv| |];
    apply consume_opt; auto; rewrite (GET _ _ _ Gb Nb); unfold bundle_l; rewrite EF; reflexivity.
  - destruct (mf_format m) eqn:EF; cbn [bformat_eqb negb]; [symmetry; now apply Hv| |];
    apply consume_opt; auto; rewrite (GET _ _ _ Gb Nb); unfold bundle_l; rewrite EF; reflexivity.
  - destruct (mf_format m) eqn:EF; cbn [bformat_eqb negb]; [symmetry; now apply Hv| |];
    rewrite (GET _ _ _ Gb Nb); unfold bundle_l; rewrite EF; cbn [assoc String.eqb Ascii.eqb Bool.eqb];
    (destruct (N.eqb_spec (mf_verity_size m) 0) as [->|]; [reflexivity|now rewrite strtoull_all_print]).
  - destruct (mf_format m) eqn:EF; cbn [bformat_eqb];
    [symmetry; apply Hk; discriminate|symmetry; apply Hk; discriminate|].
    apply consume_opt; auto; rewrite (GET _ _ _ Gb Nb); unfold bundle_l; rewrite EF; reflexivity.
  - now destruct (mf_install_check m).
Qed.

(** *** every parsed manifest is of this kind *)
Lemma consume_opt_ne kf g k : nonempty_opt (kf_consume_opt kf g k).
Proof. unfold kf_consume_opt, kf_consume, nonempty_opt. destruct (kf_get kf g k) as [[|]|]; discriminate. Qed.
Lemma consume_val_ne kf g k s : kf_consume kf g k = CVal s -> s <> "".
Proof. unfold kf_consume. destruct (kf_get kf g k) as [[|]|]; intros H; inversion H; discriminate. Qed.
Lemma kf_list_items kf g k : Forall (fun s => no_char ";" s = true) (kf_list kf g k).
Proof.
  unfold kf_list. destruct (kf_get kf g k) as [v|]; [|constructor]. unfold value_list.
  pose proof (split_on_no_char ";" v) as H. destruct (last _ _); [|exact H].
  remember (split_on ";" v) as l. clear Heql. induction H as [|x l Hx Hl IH]; [constructor|].
  cbn [removelast]. destruct l; [constructor|]. constructor; assumption.
Qed.

Lemma parse_image_inv kf g i : has_prefix "image." g = true -> parse_image kf g = Ok i ->
  (im_size i = -1 \/ 0 <= im_size i)%Z ->
  im_filename i <> None \/ im_install i = true \/ (im_artifact i = None /\ im_type i <> None) ->
  image_ok i /\ image_group i = g.
Proof.
  intros HP H HS HO. unfold parse_image in H. destruct (parse_image_name g) as [[cls art] var] eqn:EN.
  destruct (c34_total_ok _ _ _ _ HP EN) as [TO EG].
  apply bind_ok in H as (size & Hsz & H). apply bind_ok in H as ([[pre ins] post] & Hh & H).
  apply bind_ok in H as (fn & Hfn & H). apply bind_ok in H as ([t ext] & Ht & H).
  destruct (kf_only _ _ _); [|discriminate]. apply Ok_inj in H. subst i. cbn in HS, HO. split; [|unfold image_group; cbn; auto].
  assert (FN : nonempty_opt fn).
  { destruct (kf_consume kf g "filename") eqn:E; try discriminate; apply Ok_inj in Hfn; subst fn; [discriminate|].
    apply consume_val_ne in E. unfold nonempty_opt. congruence. }
  constructor; cbn; auto.
  - apply consume_opt_ne.
  - destruct HS as [->|HS]; [auto|right; split; [exact HS|]].
    destruct (kf_get kf g "size") as [v|]; [|apply Ok_inj in Hsz; lia].
    unfold strtoull_all in Hsz.
    match type of Hsz with match (if ?b then _ else _) with _ => _ end = _ => destruct b; [|discriminate] end.
    apply Ok_inj in Hsz. subst size. unfold to_goffset in *. destruct (_ <? _)%N eqn:L; [lia|].
    assert (g_ascii_strtoull 10 v <= ullong_max)%N.
    { unfold g_ascii_strtoull. repeat match goal with |- context [let (_, _) := ?x in _] => destruct x end.
      match goal with |- ((if ?b then _ else _) <= _)%N => destruct b eqn:B end; [lia|].
      apply N.ltb_ge in B. match goal with |- ((if ?b then _ else _) <= _)%N => destruct b end; [|exact B].
      unfold ullong_max. match goal with |- (?a mod ?b <= _)%N => assert (a mod b < b)%N by (apply N.mod_lt; lia) end. lia. }
    unfold ullong_max in *. lia.
  - unfold parse_type in Ht. destruct art as [a|]; [apply Ok_inj in Ht; injection Ht as <- <-; auto|].
    apply bind_ok in Ht as ([t' ext'] & Ht' & Ht).
    destruct (negb ins && negb match t' with Some t => is_image_type_supported t | None => false end) eqn:B; [discriminate|].
    apply Ok_inj in Ht. injection Ht as <- <-.
    destruct (kf_consume kf g "type") eqn:E; try discriminate.
    + unfold missing_type in Ht'. destruct ins.
      * apply Ok_inj in Ht'. injection Ht' as <- <-. auto.
      * destruct fn as [f|]; [|discriminate]. destruct (derive_image_type f) as [t0|] eqn:D; [|discriminate].
        apply Ok_inj in Ht'. injection Ht' as <- <-. cbn in B. apply negb_false_iff in B.
        repeat split; auto; [|exists f; auto]. intros ->. discriminate.
    + apply Ok_inj in Ht'. injection Ht' as <- <-. apply consume_val_ne in E. split; [exact E|]. split; [|discriminate].
      destruct ins; [auto|]. cbn in B. apply negb_false_iff in B. auto.
  - rewrite !Forall_app. repeat split; apply kf_list_items.
Qed.

Lemma parse_meta_inv kf g m : keyfile_wf kf -> has_prefix "meta." g = true -> In g (map fst kf) ->
  parse_meta kf g = Ok m -> snd m <> [] -> meta_ok m /\ g = ("meta." ++ fst m)%string.
Proof.
  intros [W1 W2] HP HI H HN. apply has_prefix_spec in HP as [r ->]. unfold parse_meta in H.
  change ("meta." ++ r)%string with ("meta" ++ String "." r)%string in *.
  rewrite (g_strsplit_max_ne ".") in H by (cbn [append]; discriminate). cbn [Nat.sub] in H. rewrite split_max_cons in H by reflexivity.
  cbn [split_max] in H. destruct (no_char "." r) eqn:D; [|discriminate]. cbn [negb] in H.
  destruct (env_key r) eqn:K; [|discriminate].
  destruct (forallb _ _) eqn:F; [|discriminate]. apply Ok_inj in H. subst m. cbn [fst snd] in *. split; [|reflexivity].
  constructor; cbn [fst snd].
  - split; [exact D|congruence].
  - split; [exact HN|]. unfold kf_group in *. destruct (assoc _ kf) eqn:E; [|constructor].
    apply assoc_in in E. now apply W2 in E.
  - rewrite forallb_forall in F. apply Forall_forall. intros kv Hk. specialize (F kv Hk).
    apply andb_true_iff in F as [F1 F2]. apply negb_true_iff, String.eqb_neq in F1. split; [exact F1|].
    now destruct (env_key (fst kv)).
Qed.

Lemma parse_groups_inv kf gs : keyfile_wf kf -> (forall g, In g gs -> In g (map fst kf)) -> NoDup gs -> forall is ms,
  parse_groups kf gs = Ok (is, ms) ->
  (forall i, In i is -> (im_size i = -1 \/ 0 <= im_size i)%Z /\
     (im_filename i <> None \/ im_install i = true \/ (im_artifact i = None /\ im_type i <> None))) ->
  (forall m, In m ms -> snd m <> []) ->
  Forall image_ok is /\ NoDup (map image_group is) /\ (forall i, In i is -> In (image_group i) gs) /\
  Forall meta_ok ms /\ NoDup (map fst ms) /\ (forall m, In m ms -> In ("meta." ++ fst m)%string gs).
Proof.
  intros W. induction gs as [|g gs IH]; intros HI ND is ms H HC HM; cbn [parse_groups] in H.
  - apply Ok_inj in H. injection H as <- <-. repeat split; try constructor; intros ? [].
  - inversion ND as [|? ? N1 N2]; subst.
    assert (IH' := IH (fun g Hg => HI g (or_intror Hg)) N2). clear IH.
    destruct (has_prefix "image." g) eqn:P1.
    + apply bind_ok in H as (i & Hi & H). apply bind_ok in H as ([is' ms'] & Hr & H). apply Ok_inj in H. injection H as <- <-.
      destruct (IH' _ _ Hr) as (A1 & A2 & A3 & A4 & A5 & A6); [intros; apply HC; now right|exact HM|].
      destruct (HC i (or_introl eq_refl)) as [C1 C2]. destruct (parse_image_inv _ _ _ P1 Hi C1 C2) as [I1 I2].
      repeat split; auto.
      * cbn [map]. constructor; [|exact A2]. intros X. apply in_map_iff in X as (j & E & Hj). apply N1. rewrite <- I2, <- E. auto.
      * intros j [->|Hj]; [left; auto|right; auto].
      * intros m Hm. right; auto.
    + destruct (has_prefix "meta." g) eqn:P2.
      * apply bind_ok in H as (m & Hm & H). apply bind_ok in H as ([is' ms'] & Hr & H). apply Ok_inj in H. injection H as <- <-.
        destruct (IH' _ _ Hr) as (A1 & A2 & A3 & A4 & A5 & A6); [exact HC|intros; apply HM; now right|].
        destruct (parse_meta_inv _ _ _ W P2 (HI g (or_introl eq_refl)) Hm (HM m (or_introl eq_refl))) as [M1 M2].
        repeat split; auto.
        -- intros j Hj. right; auto.
        -- cbn [map]. constructor; [|exact A5]. intros X. apply in_map_iff in X as (j & E & Hj). apply N1. rewrite M2, <- E. auto.
        -- intros j [->|Hj]; [left; auto|right; auto].
      * destruct (String.eqb g "rollout"); [|discriminate].
        destruct (IH' _ _ H HC HM) as (A1 & A2 & A3 & A4 & A5 & A6). repeat split; auto; intros; right; auto.
Qed.

Lemma groups_triples l : Forall image_ok l -> NoDup (map image_group l) ->
  NoDup (map (fun i => (im_class i, im_artifact i, im_variant i)) l).
Proof.
  induction l as [|i l IH]; cbn [map]; intros HF HN; [constructor|]. inversion HF; inversion HN; subst.
  constructor; [|auto]. intros X. apply in_map_iff in X as (j & E & Hj). apply H5.
  apply in_map_iff. exists j. split; [|exact Hj]. unfold image_group. injection E as -> -> ->. reflexivity.
Qed.

Lemma c32_parsed_ok : forall kf m, keyfile_wf kf -> parse_manifest kf = Ok m ->
  (forall i, In i (mf_images m) -> (im_size i = -1 \/ 0 <= im_size i)%Z /\
     (im_filename i <> None \/ im_install i = true \/ im_type i = Some "emptyfs")) ->
  (forall g, In g (mf_meta m) -> snd g <> []) ->
  manifest_ok m /\ parse_manifest (prepare_manifest m) = Ok (no_min_rauc m).
Proof.
  intros kf m W H HC HM. assert (M : manifest_ok m); [|split; [exact M|now apply c32_ok]].
  unfold parse_manifest in H. apply bind_ok in H as (c & Hc & H).
  destruct (negb _) in H; [discriminate|]. apply bind_ok in H as (f & Hf & H).
  destruct (negb _) in H; [discriminate|].
  destruct (match kf_consume_opt kf "handler" "args" with Some _ => _ | None => _ end) eqn:HA in H; [discriminate|].
  destruct (negb _) in H; [discriminate|]. destruct (negb _) in H; [discriminate|]. destruct (negb _) in H; [discriminate|].
  apply bind_ok in H as ([is ms] & Hg & H). apply Ok_inj in H.
  assert (IC : forall i, In i is -> (im_size i = -1 \/ 0 <= im_size i)%Z /\
     (im_filename i <> None \/ im_install i = true \/ (im_artifact i = None /\ im_type i <> None))).
  { intros i Hi. destruct (HC i) as [C1 C2]; [subst m; exact Hi|]. split; [exact C1|].
    destruct C2 as [C2|[C2|C2]]; auto. right; right. split; [|congruence].
    (* a parsed artifact image has no type *)
    clear - Hg Hi C2. remember (filter _ (kf_groups kf)) as gs eqn:Z. clear Z. revert is ms Hg Hi.
    induction gs as [|g gs IH]; intros is ms Hg Hi; cbn [parse_groups] in Hg.
    - apply Ok_inj in Hg. injection Hg as <- <-. destruct Hi.
    - destruct (has_prefix "image." g).
      + apply bind_ok in Hg as (j & Hj & Hg). apply bind_ok in Hg as ([is' ms'] & Hr & Hg). apply Ok_inj in Hg. injection Hg as <- <-.
        destruct Hi as [->|Hi]; [|eauto]. unfold parse_image in Hj. destruct (parse_image_name g) as [[cls art] var].
        apply bind_ok in Hj as (? & _ & Hj). apply bind_ok in Hj as ([[? ?] ?] & _ & Hj). apply bind_ok in Hj as (? & _ & Hj).
        apply bind_ok in Hj as ([t ext] & Ht & Hj). destruct (kf_only _ _ _); [|discriminate]. apply Ok_inj in Hj. subst i. cbn in *.
        destruct art; [|reflexivity]. unfold parse_type in Ht. apply Ok_inj in Ht. congruence.
      + destruct (has_prefix "meta." g).
        * apply bind_ok in Hg as (j & Hj & Hg). apply bind_ok in Hg as ([is' ms'] & Hr & Hg). apply Ok_inj in Hg. injection Hg as <- <-. eauto.
        * destruct (String.eqb g "rollout"); [eauto|discriminate]. }
  destruct (parse_groups_inv kf (filter (fun g => negb (existsb (String.eqb g) ["update"; "bundle"; "handler"; "hooks"])) (kf_groups kf)) W) with (is := is) (ms := ms)
    as (A1 & A2 & A3 & A4 & A5 & A6); auto.
  - intros g Hgi. apply filter_In in Hgi. apply Hgi.
  - apply NoDup_filter. apply W.
  - intros g Hgi. apply HM. subst m. exact Hgi.
  - subst m. constructor; cbn.
    + exists c. split; [reflexivity|]. destruct (kf_consume kf "update" "compatible") eqn:E; try discriminate.
      apply Ok_inj in Hc. subst. eapply consume_val_ne; eauto.
    + repeat split; try apply consume_opt_ne;
      (match goal with |- nonempty_opt (if ?b then _ else _) => destruct b; [apply consume_opt_ne|discriminate] end).
    + intros N1 N2. rewrite N2 in HA. destruct (kf_consume_opt kf "handler" "args"); [discriminate|congruence].
    + intros N. destruct (kf_consume_opt kf "bundle" "format"); [reflexivity|]. apply Ok_inj in Hf. congruence.
    + intros ->. cbn. auto.
    + intros N. destruct f; cbn; congruence.
    + destruct (negb (bformat_eqb f F_PLAIN)); [|cbn; lia]. destruct (kf_get kf "bundle" "verity-size") as [v|]; [|lia].
      unfold strtoull_all. match goal with |- context [if ?b then Some _ else None] => destruct b end; [|lia].
      unfold g_ascii_strtoull. repeat match goal with |- context [let (_, _) := ?x in _] => destruct x end.
      match goal with |- ((if ?b then _ else _) < _)%N => destruct b eqn:B end; [unfold ullong_max; lia|].
      apply N.ltb_ge in B. match goal with |- ((if ?b then _ else _) < _)%N => destruct b end; [|unfold ullong_max in B; lia].
      apply N.mod_lt. lia.
    + exact A1.
    + now apply groups_triples.
    + exact A4.
    + exact A5.
Qed.
