(** Proofs for C86. *)
From Verif Require Import Base BaseLemmas ArtType ArtTypeSpec.
Open Scope string_scope.

Lemma abs_app a b : has_prefix "/" a = true -> has_prefix "/" (a ++ b) = true.
Proof. destruct a as [| c a]; [discriminate |]. intros H. cbn [append]. cbn [has_prefix] in *. destruct (Ascii.eqb "/" c); [reflexivity | discriminate]. Qed.
Lemma bare_rel f : bare f -> f <> "" -> has_prefix "/" f = false.
Proof.
  unfold bare, no_char. destruct f as [| c f]; [contradiction |]. intros H _. cbn [all_chars] in H. apply andb_true_iff in H as [H _]. apply negb_true_iff in H.
  cbn [has_prefix]. rewrite Ascii.eqb_sym, H. reflexivity.
Qed.
Lemma rel_app f s : f <> "" -> has_prefix "/" f = false -> has_prefix "/" (f ++ s) = false.
Proof. destruct f as [| c f]; [contradiction |]. intros _ H. cbn [append has_prefix] in *. destruct (Ascii.eqb "/" c); [destruct f; discriminate H | reflexivity]. Qed.
Lemma no_app_slash c a s : no_char c (a ++ s) = no_char c a && no_char c s.
Proof. unfold no_char. induction a as [| x a IH]; [reflexivity |]. cbn [append all_chars]. rewrite IH, andb_assoc. reflexivity. Qed.
Lemma pick_in m f l : In m l -> pick m l (map (output_name f) l) = Some (output_name f m).
Proof.
  induction l as [| x l IH]; [intros [] |]. cbn [map pick]. destruct (String.eqb_spec x m) as [-> | N]; [reflexivity |].
  intros [E | H]; [contradiction | exact (IH H)].
Qed.
Lemma pick_out m : forall l k, ~ In m l -> pick m l k = None.
Proof.
  induction l as [| x l IH]; intros k H; [reflexivity |]. destruct k as [| n k]; [reflexivity |]. cbn [pick].
  destruct (String.eqb_spec x m) as [-> | N]; [destruct H; left; reflexivity |]. apply IH. intros Q. apply H. right. exact Q.
Qed.
Lemma pick_map m (g : string -> string) : forall l k, pick m l (map g k) = option_map g (pick m l k).
Proof. induction l as [| x l IH]; intros [| n k]; try reflexivity. cbn [map pick]. destruct (String.eqb x m); [reflexivity | apply IH]. Qed.
Lemma keep_in l : existsb (String.eqb "keep") l = true <-> In "keep" l.
Proof.
  rewrite existsb_exists. split; [intros (x & H & E); apply String.eqb_eq in E; subst x; exact H | intros H; exists "keep"; split; [exact H | reflexivity]].
Qed.

Lemma pair_ok {A B} (x : A * B) : Ok x = Ok (fst x, snd x).
Proof. destruct x; reflexivity. Qed.
Section Made.
Context {w : world} {b : string -> option node} {dir f c : string} {methods : option (list string)} (M : made w b dir f c methods).
Lemma out_bare m : bare (output_name f m) /\ output_name f m <> "".
Proof.
  destruct (md_name _ _ _ _ _ _ M) as (B & N & _). unfold output_name, bare in *. destruct (String.eqb m "tar-extract"), (String.eqb m "composefs");
    rewrite ?no_app_slash, ?B; (split; [reflexivity || exact B | destruct f; [contradiction | discriminate]]).
Qed.
Lemma located m : in_bundle dir (output_name f m) = dir ++ "/" ++ output_name f m.
Proof. unfold in_bundle. destruct (out_bare m) as [B N]. rewrite (bare_rel _ B N). reflexivity. Qed.
Lemma located_f : in_bundle dir f = dir ++ "/" ++ f.
Proof. destruct (md_name _ _ _ _ _ _ M) as (B & N & _). unfold in_bundle. rewrite (bare_rel _ B N). reflexivity. Qed.
Lemma there m : method methods m -> exists_in b (in_bundle dir (output_name f m)) = true.
Proof.
  intros (l & El & Hm). rewrite located. destruct (md_methods _ _ _ _ _ _ M l El) as [_ A]. unfold exists_in. destruct (A m Hm) as [<- | [<- | [<- | []]]]; cbn [output_name String.eqb Ascii.eqb Bool.eqb].
  - destruct (md_tree _ _ _ _ _ _ M l El Hm) as (t & _ & ->). reflexivity.
  - rewrite (md_source _ _ _ _ _ _ M), El. apply keep_in in Hm. rewrite Hm. reflexivity.
  - destruct (md_cfs _ _ _ _ _ _ M l El Hm) as (t & ->). reflexivity.
Qed.
Definition placed : aimage := mkA (dir ++ "/" ++ f) methods (option_map (fun l => map (fun m => dir ++ "/" ++ output_name f m) l) methods).
Lemma locate_ok : conversions_ok (image_of f methods) = true /\ locate b dir (image_of f methods) = Ok placed.
Proof.
  unfold image_of, conversions_ok, locate, placed. cbn [a_file a_convert a_converted]. rewrite located_f.
  assert (OB := out_bare). assert (TH := there). assert (LO := located). assert (MM := md_methods _ _ _ _ _ _ M). assert (MS := md_source _ _ _ _ _ _ M). clear M.
  destruct methods as [l |]; cbn [option_map].
  - split.
    + rewrite map_length, Nat.eqb_refl. cbn [andb]. apply forallb_forall. intros x Hx. apply in_map_iff in Hx as (m & <- & _). apply OB.
    + destruct (MM l eq_refl) as [NE A]. rewrite map_map. destruct l as [| m0 l0]; [contradiction |]. cbn [map]. rewrite andb_false_r.
      assert (G : forallb (exists_in b) (in_bundle dir (output_name f m0) :: map (fun x => in_bundle dir (output_name f x)) l0) = true).
      { apply forallb_forall. intros x Hx. change (In x (map (fun x => in_bundle dir (output_name f x)) (m0 :: l0))) in Hx. apply in_map_iff in Hx as (m & <- & Hm).
        apply TH. exists (m0 :: l0). split; [reflexivity | exact Hm]. }
      rewrite G. do 3 f_equal. apply (map_ext _ _ LO (m0 :: l0)).
  - split; [reflexivity |]. cbn [forallb]. cbv beta iota in MS. unfold exists_in. rewrite MS. reflexivity.
Qed.
Lemma conv_in m : method methods m -> get_converted placed m = Ok (Some (dir ++ "/" ++ output_name f m)).
Proof.
  intros (l & El & Hm). unfold get_converted, placed. cbn [a_convert a_converted]. rewrite El. cbn [option_map]. rewrite map_length, Nat.eqb_refl.
  destruct l as [| x l]; [destruct Hm |]. cbn [List.length Nat.eqb negb]. rewrite <- (map_map (output_name f) (fun n => dir ++ "/" ++ n)), pick_map, (pick_in m f _ Hm). reflexivity.
Qed.
Lemma conv_out m : ~ method methods m -> get_converted placed m = Ok None.
Proof.
  intros H. unfold get_converted, placed. cbn [a_convert a_converted]. destruct methods as [l |] eqn:El; [| reflexivity]. cbn [option_map]. rewrite map_length, Nat.eqb_refl.
  cbn [negb]. destruct (Nat.eqb (List.length l) 0); [reflexivity |]. rewrite pick_out; [reflexivity |]. intros Q. apply H. exists l. split; [reflexivity | exact Q].
Qed.
Lemma method_dec m : method methods m \/ ~ method methods m.
Proof.
  destruct methods as [l |] eqn:El; [| right; intros (l & E & _); discriminate E]. destruct (in_dec string_dec m l) as [H | H]; [left; exists l; split; [reflexivity | exact H] |].
  right. intros (k & E & Q). injection E as <-. contradiction.
Qed.
Lemma source : (methods = None \/ method methods "keep") -> b (dir ++ "/" ++ f) = Some (NFile c).
Proof.
  rewrite (md_source _ _ _ _ _ _ M). intros [-> | (l & -> & H)]; [reflexivity |]. apply keep_in in H. rewrite H. reflexivity.
Qed.
Lemma no_source : ~ (methods = None \/ method methods "keep") -> b (dir ++ "/" ++ f) = None.
Proof.
  intros H. rewrite (md_source _ _ _ _ _ _ M). destruct methods as [l |] eqn:El; [| destruct H; left; reflexivity].
  destruct (existsb (String.eqb "keep") l) eqn:K; [| reflexivity]. apply keep_in in K. destruct H. right. exists l. split; [reflexivity | exact K].
Qed.
Lemma none_method m : methods = None -> ~ method methods m.
Proof. intros -> (l & E & _). discriminate E. Qed.
(** the artifact that is prepared is the wanted one; it is if everything works and the type fits *)
Lemma fill_ok k : k <> Other -> exists t d, fill k w b placed = Ok (t, d) /\ (d = true -> t = wanted k w b dir f c /\ fits k methods /\ t <> None) /\
  (all_work w -> fits k methods -> wanted k w b dir f c <> None -> d = true).
Proof.
  intros NO. destruct k; [| | | contradiction]; cbn [fill wanted fits].
  - unfold files_install. change (a_file placed) with (dir ++ "/" ++ f).
    assert (D : (methods = None \/ method methods "keep") \/ ~ (methods = None \/ method methods "keep")).
    { destruct (method_dec "keep") as [K | K]; [left; right; exact K |]. destruct methods; [right; intros [E | E]; [discriminate E | contradiction] | left; left; reflexivity]. }
    destruct D as [D | D].
    + rewrite (source D). eexists _, _. split; [apply pair_ok |].
      destruct (w_open w) eqn:E1; cbn [fst snd]; [| split; [discriminate | intros (A & _); congruence]].
      destruct (w_create w) eqn:E2; cbn [fst snd]; [| split; [discriminate | intros (_ & A & _); congruence]].
      destruct (w_copy w) eqn:E3; cbn [fst snd]; [| split; [discriminate | intros (_ & _ & A & _); congruence]].
      split; [intros _; split; [reflexivity | split; [exact D | discriminate]] |]. intros (_ & _ & _ & A4 & A5 & _) _ _. rewrite A4, A5. reflexivity.
    + rewrite (no_source D). exists None, false. split; [destruct (w_open w); reflexivity |]. split; [discriminate | intros _ F; contradiction].
  - destruct (method_dec "tar-extract") as [T | T].
    + rewrite (conv_in _ T). cbn [bind]. unfold cp_install. destruct T as (l & El & Hl). destruct (md_tree _ _ _ _ _ _ M l El Hl) as (t & U & B). cbn [output_name String.eqb Ascii.eqb Bool.eqb].
      rewrite B. exists (if w_cp w then Some t else w_left w), (w_cp w). split; [destruct (w_cp w); reflexivity |].
      split; [intros ->; rewrite U; split; [reflexivity | split; [right; right; exists l; split; assumption | discriminate]] |]. intros (_ & _ & _ & _ & _ & _ & _ & A & _) _ _. exact A.
    + rewrite (conv_out _ T). cbn [bind].
      assert (TI : (methods = None \/ method methods "keep") -> exists t d, Ok (tar_install w b (dir ++ "/" ++ f)) = Ok (t, d) /\ (d = true -> t = w_untar w c /\ (methods = None \/ method methods "keep" \/ method methods "tar-extract") /\ t <> None) /\
        (all_work w -> methods = None \/ method methods "keep" \/ method methods "tar-extract" -> w_untar w c <> None -> d = true)).
      { intros D. unfold tar_install. rewrite (source D). eexists _, _. split; [apply pair_ok |].
        destruct (w_mkdir w) eqn:E1; cbn [fst snd]; [| split; [discriminate | intros (_ & _ & _ & _ & _ & A & _); congruence]].
        destruct (w_untar w c) as [t |] eqn:U; cbn [fst snd]; [| split; [discriminate | intros _ _ Q; destruct (Q eq_refl)]].
        destruct (w_tar w) eqn:E2; cbn [fst snd]; [| split; [discriminate | intros (_ & _ & _ & _ & _ & _ & A & _); congruence]].
        split; [| reflexivity]. intros _. split; [reflexivity |]. split; [tauto | discriminate]. }
      destruct (method_dec "keep") as [K | K].
      * rewrite (conv_in _ K). cbn [bind output_name String.eqb Ascii.eqb Bool.eqb]. apply TI. right. exact K.
      * rewrite (conv_out _ K). cbn [bind]. change (a_file placed) with (dir ++ "/" ++ f). unfold exists_in. destruct (b (dir ++ "/" ++ f)) eqn:B.
        -- apply TI. assert (NS := no_source). clear - NS B K. destruct methods as [l |]; [| left; reflexivity]. exfalso. rewrite NS in B; [discriminate |]. intros [E | E]; [discriminate E | contradiction].
        -- exists None, false. split; [reflexivity |]. split; [discriminate |]. intros _ [E | [E | E]]; try contradiction. rewrite (source (or_introl E)) in B. discriminate B.
  - destruct (method_dec "composefs") as [K | K].
    + rewrite (conv_in _ K). cbn [bind output_name String.eqb Ascii.eqb Bool.eqb]. unfold cfs_install. pose proof K as (l & El & Hl). destruct (md_cfs _ _ _ _ _ _ M l El Hl) as (d & B).
      rewrite B. destruct (w_mkcfs w d) as [y |]; [| exists (w_left w), false; split; [reflexivity |]; split; [discriminate | intros _ _ Q; destruct (Q eq_refl)]].
      exists (if w_cfs w then Some y else w_left w), (w_cfs w). split; [destruct (w_cfs w); reflexivity |].
      split; [intros ->; split; [reflexivity | split; [exact K | discriminate]] |]. intros (_ & _ & _ & _ & _ & _ & _ & _ & A & _) _ _. exact A.
    + rewrite (conv_out _ K). exists None, false. split; [reflexivity |]. split; [discriminate |]. intros _ E. contradiction.
Qed.
End Made.

Lemma c86_install_ok : forall k w b dir f c methods, made w b dir f c methods -> k <> Other ->
  exists ok r, install_image k w b dir (image_of f methods) (mkR None None) = (Ok ok, r) /\
  (ok = true -> r_final r = wanted k w b dir f c /\ r_final r <> None /\ r_tmp r = None /\ fits k methods) /\
  (r_final r = None \/ r_final r = wanted k w b dir f c) /\
  (all_work w -> fits k methods -> wanted k w b dir f c <> None -> ok = true).
Proof.
  intros k w b dir f c methods M NO. unfold install_image. destruct (locate_ok M) as [L1 L2]. rewrite L1, L2. unfold install_artifact. cbn [r_final r_tmp].
  change (a_file (@placed dir f methods)) with (dir ++ "/" ++ f). rewrite abs_app by apply (md_name _ _ _ _ _ _ M).
  destruct (fill_ok M k NO) as (t & d & E & F1 & F2). rewrite E. destruct d.
  - destruct (F1 eq_refl) as (T1 & T2 & T3). destruct (w_diropen w && w_syncfs w && w_rename w) eqn:W.
    + exists (w_dirsync w), (mkR None t). split; [destruct (w_dirsync w); reflexivity |]. cbn [r_final r_tmp]. split; [intros _; repeat split; assumption |].
      split; [right; exact T1 |]. intros (_ & _ & _ & _ & _ & _ & _ & _ & _ & _ & _ & _ & A) _ _. exact A.
    + exists false, (mkR t None). split; [reflexivity |]. split; [discriminate |]. split; [left; reflexivity |].
      intros (_ & _ & _ & _ & _ & _ & _ & _ & _ & A & B & C & _) _ _. rewrite A, B, C in W. discriminate W.
  - exists false, (mkR t None). split; [reflexivity |]. split; [discriminate |]. split; [left; reflexivity |]. exact F2.
Qed.
(** a tree is the same whether it was extracted when the bundle was made or is extracted on the target *)
Lemma c86_same_tree_ok : forall w b b' dir dir' f f' c methods methods' r r', made w b dir f c methods -> made w b' dir' f' c methods' ->
  install_image Trees w b dir (image_of f methods) (mkR None None) = (Ok true, r) ->
  install_image Trees w b' dir' (image_of f' methods') (mkR None None) = (Ok true, r') -> r_final r = r_final r'.
Proof.
  intros w b b' dir dir' f f' c methods methods' r r' M M' E E'.
  destruct (c86_install_ok Trees w b dir f c methods M ltac:(discriminate)) as (o & q & E1 & A & _). rewrite E in E1. injection E1 as <- <-.
  destruct (c86_install_ok Trees w b' dir' f' c methods' M' ltac:(discriminate)) as (o & q & E1 & A' & _). rewrite E' in E1. injection E1 as <- <-.
  rewrite (proj1 (A eq_refl)), (proj1 (A' eq_refl)). reflexivity.
Qed.
(** manifests which pass the check never make rauc read through a NULL pointer, whatever is in the bundle *)
Lemma c86_no_crash_ok : forall k w b dir i, k <> Other -> has_prefix "/" dir = true ->
  exists ok r, install_image k w b dir i (mkR None None) = (Ok ok, r) /\ (ok = true -> r_final r <> None).
Proof.
  intros k w b dir i NO HD. unfold install_image. destruct (conversions_ok i) eqn:C; [| exists false, (mkR None None); split; [reflexivity | discriminate]].
  unfold locate. destruct (_ && _); [exists false, (mkR None None); split; [reflexivity | discriminate] |].
  destruct (forallb _ _); [| exists false, (mkR None None); split; [reflexivity | discriminate]].
  set (j := mkA _ _ _). assert (A : has_prefix "/" (a_file j) = true).
  { unfold j, in_bundle. cbn [a_file]. destruct (has_prefix "/" (a_file i)) eqn:P; [exact P | apply abs_app, HD]. }
  assert (G : forall m, exists o, get_converted j m = Ok o).
  { intros m. unfold get_converted, j. cbn [a_convert a_converted]. unfold conversions_ok in C. destruct (a_convert i) as [l |]; [| eexists; reflexivity].
    destruct (a_converted i) as [q |]; [| discriminate C]. destruct (Nat.eqb (List.length (map (in_bundle dir) q)) 0); [eexists; reflexivity |]. destruct (negb _); eexists; reflexivity. }
  clearbody j. unfold install_artifact. cbn [r_final r_tmp]. rewrite A.
  assert (F : exists t d, fill k w b j = Ok (t, d) /\ (d = true -> t <> None)).
  { destruct k; [| | | contradiction]; cbn [fill].
    - unfold files_install. destruct (w_open w), (b (a_file j)) as [[] |], (w_create w), (w_copy w); eexists _, _; (split; [reflexivity |]); discriminate.
    - destruct (G "tar-extract") as [o ->]. cbn [bind]. destruct o as [n |].
      + unfold cp_install. destruct (b n); [destruct (w_cp w) |]; eexists _, _; (split; [reflexivity |]); discriminate.
      + assert (TI : forall n, exists t d, Ok (tar_install w b n) = Ok (t, d) /\ (d = true -> t <> None)).
        { intros n. unfold tar_install. destruct (w_mkdir w), (b n) as [[s |] |]; try destruct (w_untar w s); try destruct (w_tar w); eexists _, _; (split; [reflexivity |]); discriminate. }
        destruct (G "keep") as [o ->]. cbn [bind]. destruct o as [n |]; [apply TI |]. destruct (exists_in b (a_file j)); [apply TI |]. exists None, false. split; [reflexivity | discriminate].
    - destruct (G "composefs") as [o ->]. cbn [bind]. destruct o as [n |]; [| exists None, false; split; [reflexivity | discriminate]].
      unfold cfs_install. destruct (b n) as [x |]; [destruct (w_mkcfs w x); [destruct (w_cfs w) |] |]; eexists _, _; (split; [reflexivity |]); discriminate. }
  destruct F as (t & d & -> & T). destruct d; [| exists false, (mkR t None); split; [reflexivity | discriminate]].
  destruct (w_diropen w && w_syncfs w && w_rename w); [| exists false, (mkR t None); split; [reflexivity | discriminate]].
  exists (w_dirsync w), (mkR None t). split; [destruct (w_dirsync w); reflexivity |]. intros _. exact (T eq_refl).
Qed.
(** an artifact which is converted to a tree only does not fit a repository of files, and one without conversion not one of composefs images *)
Definition xw : world := mkW true true true true true true true true true true true true true None (fun _ => Some (NDir [("etc", NDir [])])) Some.
Definition xb (p : string) : option node := if String.eqb p "/b/net.tar.extracted" then Some (NDir [("etc", NDir [])]) else None.
Lemma xmade : made xw xb "/b" "net.tar" "T" (Some ["tar-extract"]).
Proof.
  constructor.
  - repeat split; discriminate.
  - intros l E. injection E as <-. split; [discriminate |]. intros m [<- | []]. left. reflexivity.
  - reflexivity.
  - intros l E _. exists (NDir [("etc", NDir [])]). split; reflexivity.
  - intros l E H. injection E as <-. destruct H as [H | []]. discriminate H.
Qed.
Lemma c86_fits_all_refuted : ~ (forall k w b dir f c methods, made w b dir f c methods -> k <> Other -> all_work w -> wanted k w b dir f c <> None ->
  exists r, install_image k w b dir (image_of f methods) (mkR None None) = (Ok true, r)).
Proof.
  intros H. destruct (H Files _ _ _ _ _ _ xmade ltac:(discriminate) ltac:(repeat split) ltac:(discriminate)) as (r & E). vm_compute in E. discriminate E.
Qed.
(** whatever the bundle contains: in a repository of files only a regular file, unchanged *)
Theorem c86_files_ok : forall w b dir i r, install_image Files w b dir i (mkR None None) = (Ok true, r) -> has_prefix "/" (a_file i) = false ->
  exists c, b (dir ++ "/" ++ a_file i) = Some (NFile c) /\ r_final r = Some (NFile c) /\ r_tmp r = None.
Proof.
  intros w b dir i r. unfold install_image. destruct (conversions_ok i); [| discriminate]. unfold locate. destruct (negb _ && _); [discriminate |].
  destruct (forallb _ _); [| discriminate]. unfold install_artifact. cbn [r_final r_tmp fill]. unfold files_install. intros H Hf. revert H. cbn [a_file].
  match goal with |- context [has_prefix "/" ?f] => destruct (has_prefix "/" f); [| discriminate] end.
  unfold in_bundle. rewrite Hf. destruct (w_open w); [| discriminate]. destruct (b (dir ++ "/" ++ _)%string) as [[c | l] |]; [| destruct (w_create w); discriminate | discriminate].
  destruct (w_create w); [| discriminate]. destruct (w_copy w); [| discriminate]. destruct (w_fsync w && w_close w); [| discriminate].
  destruct (w_diropen w && w_syncfs w && w_rename w); [| discriminate]. destruct (w_dirsync w); [| discriminate]. intros H. injection H as <-. exists c. repeat split; reflexivity.
Qed.
