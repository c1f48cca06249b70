From Verif Require Import Base BaseLemmas Slot Efi EfiSpec EfiProofs ContextSpec Custom CustomSpec EfiText EfiTextSpec.
From Verif Require Context CustomProofs.

(** ** lines *)
Lemma text_lines : forall ls, Forall one_line ls -> split_on "010" (Context.cstring (text_of ls)) = ls ++ [""].
Proof.
  intros ls H. rewrite CustomProofs.cstring_text.
  - induction ls as [|l ls IH]; [reflexivity|]. inversion H as [|? ? H1 H2]; subst. cbn [text_of fold_right].
    rewrite split_on_cons by exact (proj1 H1). fold (text_of ls). rewrite (IH H2). reflexivity.
  - unfold text_only. induction ls as [|l ls IH]; [reflexivity|]. inversion H as [|? ? H1 H2]; subst. cbn [text_of fold_right]. fold (text_of ls).
    rewrite no_char_app. rewrite (proj2 H1). unfold no_char in *. cbn [all_chars]. rewrite (IH H2). reflexivity.
Qed.
Lemma one_line_app : forall a b, one_line a -> one_line b -> one_line (a ++ b).
Proof. unfold one_line, text_only. intros a b [A1 A2] [B1 B2]. rewrite !no_char_app, A1, A2, B1, B2. auto. Qed.
Lemma hex_line : forall n, all_chars hex_digit n = true -> one_line n.
Proof.
  intros n H. unfold one_line, text_only, no_char.
  split; (eapply all_chars_impl; [|exact H]); intros [[] [] [] [] [] [] [] []] X; try discriminate X; reflexivity.
Qed.
Lemma number_hex4 : forall n, boot_number n -> hex4 n = true.
Proof.
  intros n [H1 H2]. unfold hex4. rewrite H1. cbn [Nat.eqb andb]. eapply all_chars_impl; [|exact H2].
  intros [[] [] [] [] [] [] [] []] X; try discriminate X; reflexivity.
Qed.
Lemma take4 : forall n r, String.length n = 4 -> stake 4 (sdrop 4 ("Boot" ++ n ++ r)) = n /\ sdrop 8 ("Boot" ++ n ++ r) = r.
Proof.
  intros n r H. do 5 (destruct n as [|? n]; try discriminate H). split; reflexivity.
Qed.
Lemma until_tab_ok : forall b path, no_char "009" b = true -> path = "" \/ (exists p, path = String "009" p /\ one_line p) -> until_tab (b ++ path) = b.
Proof.
  induction b as [|a b IH]; intros path H Hp.
  - destruct Hp as [->|(p & -> & _)]; reflexivity.
  - unfold no_char in *. cbn [all_chars] in H. apply andb_prop in H as [H1 H2]. cbn [append until_tab]. apply negb_true_iff in H1. rewrite H1, IH by assumption. reflexivity.
Qed.
Lemma entry_line_ok : forall e l, boot_number (fst e) -> label_ok (snd e) -> entry_shown e l -> entry_line l = Some e.
Proof.
  intros e l Hn Hb H. destruct H as [n b mark path Hm Hp]. cbn [fst snd] in *. destruct Hn as [Hl Hh]. destruct (take4 n (mark ++ " " ++ b ++ path) Hl) as [T1 T2].
  unfold entry_line. rewrite T1, T2. assert (P : has_prefix "Boot" ("Boot" ++ n ++ mark ++ " " ++ b ++ path) = true) by reflexivity. rewrite P.
  rewrite (number_hex4 n (conj Hl Hh)). cbn [andb]. destruct Hb as (B1 & B2 & B3 & B4). destruct b as [|c b]; [congruence|].
  destruct Hm as [-> | ->]; cbn [append]; cbn [Ascii.eqb Bool.eqb orb andb]; change (String c (b ++ path)) with (String c b ++ path)%string; rewrite until_tab_ok by assumption; reflexivity.
Qed.
Lemma entry_one_line : forall e l, boot_number (fst e) -> label_ok (snd e) -> entry_shown e l -> one_line l.
Proof.
  intros e l Hn Hb H. destruct H as [n b mark path Hm Hp]. cbn [fst snd] in *. destruct Hb as (B1 & B2 & B3 & B4).
  repeat apply one_line_app; try (split; reflexivity).
  - apply hex_line, Hn.
  - destruct Hm as [-> | ->]; split; reflexivity.
  - split; assumption.
  - destruct Hp as [->|(p & -> & Q)]; [split; reflexivity|]. change (String "009" p) with ((String "009" "") ++ p)%string. apply one_line_app; [split; reflexivity|exact Q].
Qed.
Lemma entry_not_other : forall l, has_prefix "Boot" l = false -> entry_line l = None.
Proof. intros l H. unfold entry_line. rewrite H. reflexivity. Qed.
Lemma value_not_other : forall key p l, has_prefix ("Boot" ++ key) l = false \/ has_prefix "Boot" l = false -> value_line ("Boot" ++ key) p l = None.
Proof.
  intros key p l [H|H]; unfold value_line.
  - rewrite H. reflexivity.
  - assert (E : has_prefix ("Boot" ++ key) l = false); [|rewrite E; reflexivity].
    destruct (has_prefix ("Boot" ++ key) l) eqn:X; [|reflexivity]. exfalso. cbn [append] in X.
    assert (Y : has_prefix "Boot" l = true); [|congruence].
    destruct l as [|a1 [|a2 [|a3 [|a4 l]]]]; cbn [has_prefix] in *;
      repeat (apply andb_prop in X as [-> X]); try discriminate X; reflexivity.
Qed.

Lemma all_matches_app : forall A (f : string -> option A) a b, all_matches f (a ++ b) = all_matches f a ++ all_matches f b.
Proof. intros. apply flat_map_app. Qed.
Lemma all_matches_none : forall A (f : string -> option A) l, Forall (fun x => f x = None) l -> all_matches f l = [].
Proof. intros A f l H. unfold all_matches. induction H as [|x l Hx _ IH]; [reflexivity|]. cbn [flat_map]. rewrite Hx, IH. reflexivity. Qed.
Lemma first_match_app : forall A (f : string -> option A) a b, Forall (fun x => f x = None) a -> first_match f (a ++ b) = first_match f b.
Proof. intros A f a b H. induction H as [|x a Hx _ IH]; [reflexivity|]. cbn [app first_match]. rewrite Hx. exact IH. Qed.
Lemma first_match_none : forall A (f : string -> option A) a, Forall (fun x => f x = None) a -> first_match f a = None.
Proof. intros A f a H. induction H as [|x a Hx _ IH]; [reflexivity|]. cbn [first_match]. rewrite Hx. exact IH. Qed.
Lemma value_line_ok : forall key p v, p v = true -> value_line key p (key ++ v) = Some v.
Proof.
  intros key p v H. unfold value_line. rewrite sdrop_app, H.
  assert (E : has_prefix key (key ++ v) = true) by (induction key as [|a k IH]; [reflexivity|cbn; rewrite Ascii.eqb_refl; exact IH]). rewrite E. reflexivity.
Qed.

(** the lines which are not what is looked for *)
Definition blank (A : Type) (f : string -> option A) (l : list string) : Prop := Forall (fun x => f x = None) l.
Lemma shown_all : forall es shown, Forall (fun e => boot_number (fst e) /\ label_ok (snd e)) es -> Forall2 entry_shown es shown ->
  all_matches entry_line shown = es /\ Forall one_line shown /\
  (forall key p, In key ["Order: "; "Next: "; "Current: "] -> blank string (value_line ("Boot" ++ key) p) shown).
Proof.
  intros es shown H1 H2. induction H2 as [|e l es shown Hs _ IH]; [repeat split; constructor|]. inversion H1 as [|? ? [Hn Hl] H3]; subst.
  destruct (IH H3) as (I1 & I2 & I3). split; [|split].
  - unfold all_matches in *. cbn [flat_map]. rewrite (entry_line_ok _ _ Hn Hl Hs), I1. reflexivity.
  - constructor; [exact (entry_one_line _ _ Hn Hl Hs)|exact I2].
  - intros key p Hk. constructor; [|exact (I3 key p Hk)]. apply value_not_other. left.
    destruct Hs as [n b mark path _ _]. cbn [fst] in Hn. destruct Hn as [Hlen Hh]. destruct n as [|c n]; [discriminate Hlen|]. cbn [all_chars] in Hh. apply andb_prop in Hh as [Hc Hh].
    destruct n as [|d n]; [discriminate Hlen|]. cbn [all_chars] in Hh. apply andb_prop in Hh as [Hd _]. cbn [append has_prefix].
    destruct Hk as [<-|[<-|[<-|[]]]]; cbn [append has_prefix]; rewrite !Ascii.eqb_refl; cbn [andb].
    + destruct (Ascii.eqb_spec "O" c) as [<-|_]; [discriminate Hc|reflexivity].
    + destruct (Ascii.eqb_spec "N" c) as [<-|_]; [discriminate Hc|reflexivity].
    + destruct (Ascii.eqb_spec "u" d) as [<-|_]; [discriminate Hd|]. cbn [andb]. rewrite andb_false_r. reflexivity.
Qed.
Lemma blank_other : forall l, Forall other_line l -> Forall one_line l /\ blank entry entry_line l /\ forall key p, blank string (value_line ("Boot" ++ key) p) l.
Proof.
  intros l H. split; [|split].
  - eapply Forall_impl; [|exact H]. intros a Ha. exact (proj1 Ha).
  - eapply Forall_impl; [|exact H]. intros a Ha. apply entry_not_other, (proj2 Ha).
  - intros key p. eapply Forall_impl; [|exact H]. intros a Ha. apply value_not_other. right. exact (proj2 Ha).
Qed.
Lemma blank_opt : forall key o, In key ["Next: "; "Current: "] -> (forall n, o = Some n -> boot_number n) ->
  Forall one_line (opt_line ("Boot" ++ key) o) /\ blank entry entry_line (opt_line ("Boot" ++ key) o) /\
  (forall k p, In k ["Order: "; "Next: "; "Current: "] -> k <> key -> blank string (value_line ("Boot" ++ k) p) (opt_line ("Boot" ++ key) o)) /\
  first_match (value_line ("Boot" ++ key) hex4) (opt_line ("Boot" ++ key) o) = o.
Proof.
  intros key o Hk Ho. destruct o as [n|]; cbn [opt_line]; [|repeat split; try constructor; intros; constructor].
  specialize (Ho n eq_refl). split; [|split; [|split]].
  - constructor; [|constructor]. apply one_line_app; [|apply hex_line, Ho]. destruct Hk as [<-|[<-|[]]]; split; reflexivity.
  - constructor; [|constructor]. destruct Hk as [<-|[<-|[]]]; reflexivity.
  - intros k p Hk' Hne. constructor; [|constructor]. apply value_not_other. left.
    destruct Hk as [<-|[<-|[]]]; (destruct Hk' as [<-|[<-|[<-|[]]]]; try congruence; reflexivity).
  - cbn [first_match]. rewrite value_line_ok by (apply number_hex4, Ho). reflexivity.
Qed.
Lemma join_nonspace : forall l, Forall boot_number l -> all_chars nonspace (join "," l) = true.
Proof.
  intros l H. assert (G : forall n, boot_number n -> all_chars nonspace n = true).
  { intros n [_ Hn]. eapply all_chars_impl; [|exact Hn]. intros [[] [] [] [] [] [] [] []] X; try discriminate X; reflexivity. }
  induction H as [|n l Hn _ IH]; [reflexivity|]. destruct l as [|m l]; [apply G, Hn|].
  change (join "," (n :: m :: l)) with (n ++ "," ++ join "," (m :: l))%string. rewrite all_chars_app, (G n Hn). exact IH.
Qed.
Lemma join_order_chars : forall l, Forall boot_number l -> all_chars (fun c => hex_digit c || Ascii.eqb c ",") (join "," l) = true.
Proof.
  intros l H. assert (G : forall n, boot_number n -> all_chars (fun c => hex_digit c || Ascii.eqb c ",") n = true).
  { intros n [_ Hn]. eapply all_chars_impl; [|exact Hn]. intros a X. rewrite X. reflexivity. }
  induction H as [|n l Hn _ IH]; [reflexivity|]. destruct l as [|m l]; [apply G, Hn|].
  change (join "," (n :: m :: l)) with (n ++ "," ++ join "," (m :: l))%string. rewrite all_chars_app, (G n Hn). exact IH.
Qed.
Lemma number_no_comma : forall n, boot_number n -> no_char "," n = true.
Proof. intros n [_ Hn]. eapply all_chars_impl; [|exact Hn]. intros [[] [] [] [] [] [] [] []] X; try discriminate X; reflexivity. Qed.
Lemma join_nonempty : forall n l, boot_number n -> join "," (n :: l) <> "".
Proof. intros n l [H _]. destruct n; [discriminate H|]. destruct l; discriminate. Qed.
Lemma strsplit_order : forall l, Forall boot_number l -> l <> [] -> g_strsplit "," (join "," l) = l.
Proof.
  intros l H Hne. unfold g_strsplit. destruct l as [|n l]; [congruence|]. pose proof (join_nonempty n l (Forall_inv H)) as Hj.
  destruct (join "," (n :: l)) eqn:E; [congruence|]. rewrite <- E. apply split_on_join; [discriminate|].
  eapply Forall_impl; [|exact H]. intros x Hx. apply number_no_comma, Hx.
Qed.
Lemma order_one_line : forall o, Forall boot_number o -> one_line (order_line o) /\ entry_line (order_line o) = None /\
  (forall key p, In key ["Next: "; "Current: "] -> value_line ("Boot" ++ key) p (order_line o) = None) /\
  value_line "BootOrder: " some_nonspace (order_line o) = match o with [] => None | _ => Some (join "," o) end.
Proof.
  intros o H. destruct o as [|n o].
  - split; [split; reflexivity|]. split; [reflexivity|]. split; [|reflexivity]. intros key p [<-|[<-|[]]]; reflexivity.
  - cbn [order_line]. split; [|split; [|split]].
    + apply one_line_app; [split; reflexivity|]. pose proof (join_order_chars _ H) as J. split; unfold text_only, no_char;
        (eapply all_chars_impl; [|exact J]); intros [[] [] [] [] [] [] [] []] X; try discriminate X; reflexivity.
    + reflexivity.
    + intros key p [<-|[<-|[]]]; reflexivity.
    + apply value_line_ok. unfold some_nonspace. rewrite (join_nonspace _ H). destruct (String.eqb_spec (join "," (n :: o)) "") as [E|_]; [|reflexivity].
      exfalso. exact (join_nonempty n o (Forall_inv H) E).
Qed.

(** ** the output is understood *)
Lemma c67_parse_ok : forall st out, showable st -> printed st out -> parse_output out = efi_bootorder_get st.
Proof.
  intros st out (He & Ho & Hn & Hc) (l1 & l2 & l3 & l4 & shown & Hother & Hshown & ->).
  rewrite !Forall_app in Hother. destruct Hother as (O1 & O2 & O3 & O4).
  destruct (blank_other _ O1) as (A1 & A2 & A3). destruct (blank_other _ O2) as (B1 & B2 & B3). destruct (blank_other _ O3) as (C1 & C2 & C3). destruct (blank_other _ O4) as (D1 & D2 & D3).
  destruct (shown_all _ _ He Hshown) as (S1 & S2 & S3).
  destruct (blank_opt "Next: " (ef_next st) (or_introl eq_refl) Hn) as (N1 & N2 & N3 & N4).
  destruct (blank_opt "Current: " (ef_current st) (or_intror (or_introl eq_refl)) Hc) as (R1 & R2 & R3 & R4).
  destruct (order_one_line _ Ho) as (P1 & P2 & P3 & P4).
  change ("Boot" ++ "Next: ")%string with "BootNext: " in *. change ("Boot" ++ "Current: ")%string with "BootCurrent: " in *.
  unfold parse_output. rewrite text_lines.
  2:{ rewrite !Forall_app. repeat split; auto. }
  assert (EO : all_matches entry_line [order_line (ef_order st)] = []) by (unfold all_matches; cbn [flat_map]; rewrite P2; reflexivity).
  assert (EA : all_matches entry_line
    ((l1 ++ opt_line "BootNext: " (ef_next st) ++ l2 ++ opt_line "BootCurrent: " (ef_current st) ++ l3 ++ [order_line (ef_order st)] ++ shown ++ l4) ++ [""]) = ef_entries st).
  { rewrite !all_matches_app. rewrite (all_matches_none _ _ _ A2), (all_matches_none _ _ _ N2), (all_matches_none _ _ _ B2), (all_matches_none _ _ _ R2), (all_matches_none _ _ _ C2), (all_matches_none _ _ _ D2).
    rewrite EO, S1. change (all_matches entry_line [""]) with (@nil entry). cbn [app]. rewrite !app_nil_r. reflexivity. }
  cbv zeta. rewrite EA. clear EA.
  unfold efi_bootorder_get. destruct (ef_entries st) as [|e es] eqn:Ee; [reflexivity|].
  assert (F0 : first_match (value_line "BootOrder: " some_nonspace)
    ((l1 ++ opt_line "BootNext: " (ef_next st) ++ l2 ++ opt_line "BootCurrent: " (ef_current st) ++ l3 ++ [order_line (ef_order st)] ++ shown ++ l4) ++ [""]) =
    match ef_order st with [] => None | o => Some (join "," o) end).
  { rewrite <- !app_assoc. rewrite first_match_app by exact (A3 "Order: " some_nonspace).
    rewrite first_match_app by (apply (N3 "Order: "); [left; reflexivity|discriminate]). rewrite first_match_app by exact (B3 "Order: " some_nonspace).
    rewrite first_match_app by (apply (R3 "Order: "); [left; reflexivity|discriminate]). rewrite first_match_app by exact (C3 "Order: " some_nonspace).
    cbn [app first_match]. rewrite P4. destruct (ef_order st); [|reflexivity].
    rewrite first_match_app by (apply (S3 "Order: "); left; reflexivity). rewrite first_match_app by exact (D3 "Order: " some_nonspace). reflexivity. }
  rewrite F0. clear F0. destruct (ef_order st) as [|o1 os] eqn:Eo; [reflexivity|].
  rewrite strsplit_order by (try exact Ho; discriminate).
  assert (F1 : first_match (value_line "BootNext: " hex4)
    ((l1 ++ opt_line "BootNext: " (ef_next st) ++ l2 ++ opt_line "BootCurrent: " (ef_current st) ++ l3 ++ [order_line (o1 :: os)] ++ shown ++ l4) ++ [""]) = ef_next st).
  { rewrite <- !app_assoc. rewrite first_match_app by exact (A3 "Next: " hex4). destruct (ef_next st) as [n|].
    - cbn [opt_line app first_match] in N4 |- *. destruct (value_line "BootNext: " hex4 ("BootNext: " ++ n)); [exact N4|discriminate N4].
    - cbn [opt_line app]. rewrite first_match_app by exact (B3 "Next: " hex4).
      rewrite first_match_app by (apply (R3 "Next: "); [cbn; auto|discriminate]). rewrite first_match_app by exact (C3 "Next: " hex4).
      cbn [app first_match]. change "BootNext: " with ("Boot" ++ "Next: ")%string. rewrite (P3 "Next: ") by (left; reflexivity).
      rewrite first_match_app by (apply (S3 "Next: "); cbn; auto). rewrite first_match_app by exact (D3 "Next: " hex4). reflexivity. }
  assert (F2 : first_match (value_line "BootCurrent: " hex4)
    ((l1 ++ opt_line "BootNext: " (ef_next st) ++ l2 ++ opt_line "BootCurrent: " (ef_current st) ++ l3 ++ [order_line (o1 :: os)] ++ shown ++ l4) ++ [""]) = ef_current st).
  { rewrite <- !app_assoc. rewrite first_match_app by exact (A3 "Current: " hex4).
    rewrite first_match_app by (apply (N3 "Current: "); [cbn; auto|discriminate]). rewrite first_match_app by exact (B3 "Current: " hex4).
    destruct (ef_current st) as [n|].
    - cbn [opt_line app first_match] in R4 |- *. destruct (value_line "BootCurrent: " hex4 ("BootCurrent: " ++ n)); [exact R4|discriminate R4].
    - cbn [opt_line app]. rewrite first_match_app by exact (C3 "Current: " hex4).
      cbn [app first_match]. change "BootCurrent: " with ("Boot" ++ "Current: ")%string. rewrite (P3 "Current: ") by (cbn; auto).
      rewrite first_match_app by (apply (S3 "Current: "); cbn; auto). rewrite first_match_app by exact (D3 "Current: " hex4). reflexivity. }
  rewrite F1, F2. reflexivity.
Qed.

(** ** the calls *)
Lemma outcome_ok : forall o, ok_outcome o = true <-> exists out, o = Ran out (Some 0).
Proof.
  intros [|out [[|n]|]]; cbn; split; try discriminate; try (intros (x & X); discriminate X); eauto.
Qed.
Lemma failed_not_ok : forall o, failed o -> ok_outcome o = false.
Proof. intros o H. destruct (ok_outcome o) eqn:E; [|reflexivity]. apply outcome_ok in E. destruct E as (out & E). exfalso. exact (H out E). Qed.
Lemma c67_get_ok : forall W (run : program W) view w w' r, efi_tool run view -> showable (view w) -> text_bootorder_get run w = (w', r) ->
  view w' = view w /\ (r = Err \/ r = efi_bootorder_get (view w)).
Proof.
  intros W run view w w' r T Hs H. unfold text_bootorder_get in H. destruct (run w []) as [w1 o] eqn:E. apply pair_equal_spec in H as [<- <-].
  destruct (et_show _ _ T _ _ _ E) as (Hv & H). split; [exact Hv|]. destruct H as [F|(out & -> & P)].
  - left. destruct o as [|out [[|n]|]]; try reflexivity. exfalso. exact (F out eq_refl).
  - right. cbn [Nat.eqb]. apply c67_parse_ok; assumption.
Qed.

Lemma get_not_abort : forall st, efi_bootorder_get st <> Abort.
Proof. intros st. unfold efi_bootorder_get. destruct (ef_entries st); [discriminate|]. destruct (ef_order st); discriminate. Qed.
Lemma get_all : forall st i, efi_bootorder_get st = Ok i -> in_all i = ef_entries st /\ incl (in_order i) (ef_entries st).
Proof.
  intros st i H. unfold efi_bootorder_get in H. destruct (ef_entries st) as [|e es] eqn:E; [discriminate|]. destruct (ef_order st) as [|o os]; [discriminate|].
  apply Ok_inj in H. subst i. cbn [in_all in_order]. split; [reflexivity|]. intros x Hx. apply in_flat_map in Hx as (n & _ & Hx).
  destruct (by_num (e :: es) n) as [y|] eqn:B; [|destruct Hx]. destruct Hx as [<-|[]]. unfold by_num in B. apply find_some in B. exact (proj1 B).
Qed.
Lemma created_found : forall st b st', created st b st' -> exists e, by_name (ef_entries st') b = Some e.
Proof.
  intros st b st' (n & _ & -> & _). unfold by_name. induction (ef_entries st) as [|e es IH]; cbn [app find].
  - cbn. rewrite String.eqb_refl. eauto.
  - destruct (String.eqb (snd e) b); eauto.
Qed.

(** [prepare]: what is found afterwards *)
Lemma prepare_ok : forall W (run : program W) view s w w' r, efi_tool run view -> showable (view w) -> label_ok (sn_bootname s) ->
  text_prepare run s w = (w', r) ->
  maybe_created (view w) (sn_bootname s) (view w') /\ showable (view w') /\ r <> Abort /\
  forall i, r = Ok i -> exists create, (forall st, create = Some st -> created (view w) (sn_bootname s) st) /\
    efi_prepare (view w) (sn_bootname s) create = Ok (view w', i) /\ in_all i = ef_entries (view w') /\ incl (in_order i) (ef_entries (view w')) /\
    exists e, by_name (in_all i) (sn_bootname s) = Some e.
Proof.
  intros W run view s w w' r T Hs Hl H. unfold text_prepare in H. destruct (text_bootorder_get run w) as [w1 r1] eqn:E1.
  destruct (c67_get_ok _ _ _ _ _ _ T Hs E1) as (V1 & R1). destruct r1 as [i| |].
  2:{ apply pair_equal_spec in H as [<- <-]. split; [left; exact V1|]. split; [rewrite V1; exact Hs|]. split; discriminate. }
  2:{ apply pair_equal_spec in H as [<- <-]. split; [left; exact V1|]. split; [rewrite V1; exact Hs|]. split; discriminate. }
  destruct R1 as [R1|R1]; [discriminate|]. symmetry in R1. destruct (get_all _ _ R1) as (G1 & G2).
  destruct (by_name (in_all i) (sn_bootname s)) as [e|] eqn:B.
  - apply pair_equal_spec in H as [<- <-]. split; [left; exact V1|]. split; [rewrite V1; exact Hs|]. split; [discriminate|].
    intros i' Hi. apply Ok_inj in Hi. subst i'. exists None. split; [discriminate|]. unfold efi_prepare. rewrite R1. cbn [bind]. rewrite B, V1.
    split; [reflexivity|]. split; [exact G1|]. split; [exact G2|]. eauto.
  - destruct (text_create run s w1) as [w2 r2] eqn:E2. unfold text_create in E2.
    assert (X : (r2 = Err /\ view w2 = view w1) \/ (r2 = Ok tt /\ created (view w1) (sn_bootname s) (view w2) /\ showable (view w2))).
    { destruct (sn_loader s) as [l|]; [|left; apply pair_equal_spec in E2 as [<- <-]; auto].
      destruct (sn_cmdline s) as [c|]; [|left; apply pair_equal_spec in E2 as [<- <-]; auto].
      destruct (sn_dev s) as [[disk part]|]; [|left; apply pair_equal_spec in E2 as [<- <-]; auto].
      unfold text_call in E2. destruct (run w1 _) as [w3 o] eqn:E3. apply pair_equal_spec in E2 as [<- <-].
      destruct (et_create _ _ T _ _ _ _ _ _ _ _ E3) as [(F & V)|(O & C & S)].
      - left. rewrite (failed_not_ok _ F). auto.
      - right. apply outcome_ok in O. rewrite O. split; [reflexivity|]. split; [exact C|]. apply S; [rewrite V1; exact Hs|exact Hl]. }
    destruct X as [(-> & V2)|(-> & C & S)].
    + apply pair_equal_spec in H as [<- <-]. split; [left; congruence|]. split; [rewrite V2, V1; exact Hs|]. split; discriminate.
    + destruct (c67_get_ok _ _ _ _ _ _ T S H) as (V2 & R2). rewrite V1 in C. split; [right; rewrite V2; exact C|]. split; [rewrite V2; exact S|].
      split; [destruct R2 as [->|R2]; [discriminate|rewrite R2; apply get_not_abort]|]. intros i' Hi. destruct R2 as [R2|R2]; [congruence|]. rewrite R2 in Hi.
      destruct (get_all _ _ Hi) as (G3 & G4).
      exists (Some (view w2)). split; [intros st Hst; apply Some_inj in Hst; subst st; exact C|].
      unfold efi_prepare. rewrite R1. cbn [bind]. rewrite B, Hi. cbn [bind]. rewrite V2. split; [reflexivity|]. split; [exact G3|]. split; [exact G4|].
      rewrite G3. exact (created_found _ _ _ C).
Qed.

Lemma in_number : forall st es, showable st -> incl es (ef_entries st) -> Forall boot_number (map fst es).
Proof.
  intros st es (H & _) Hi. apply Forall_forall. intros n Hn. apply in_map_iff in Hn as (e & <- & He). rewrite Forall_forall in H. exact (proj1 (H e (Hi e He))).
Qed.
Lemma remove_incl : forall es b, incl (remove_first es b) es.
Proof.
  induction es as [|e es IH]; intros b; [intros x []|]. cbn [remove_first]. destruct (String.eqb (snd e) b).
  - intros x Hx. right. exact Hx.
  - intros x [<-|Hx]; [left; reflexivity|right; exact (IH b x Hx)].
Qed.
Lemma by_name_in : forall es b e, by_name es b = Some e -> In e es /\ snd e = b.
Proof. intros es b e H. unfold by_name in H. apply find_some in H as [H1 H2]. apply String.eqb_eq in H2. auto. Qed.

(** setting: as in Efi.v (C13), or an error with the boot order and BootNext unchanged *)
Lemma modify_ok : forall W (run : program W) view s prepend w w' r, efi_tool run view -> showable (view w) -> label_ok (sn_bootname s) ->
  text_modify_order run s prepend w = (w', r) ->
  (r = Ok tt /\ exists create, created_by (view w) (sn_bootname s) create /\ efi_modify_order (view w) (sn_bootname s) prepend create = Ok (view w')) \/
  (r = Err /\ maybe_created (view w) (sn_bootname s) (view w')).
Proof.
  intros W run view s prepend w w' r T Hs Hl H. unfold text_modify_order in H. destruct (text_prepare run s w) as [w1 r1] eqn:E1.
  destruct (prepare_ok _ _ _ _ _ _ _ T Hs Hl E1) as (M & S1 & NA & P). destruct r1 as [i| |]; [|right; apply pair_equal_spec in H as [<- <-]; auto|congruence].
  destruct (P i eq_refl) as (create & Hc & Hp & G1 & G2 & e & Be). rewrite Be in H.
  assert (Q : forall l, Forall boot_number l -> text_call run ["--bootorder"; join "," l] w1 = (w', r) ->
    (r = Ok tt /\ view w' = mkEfi (ef_entries (view w1)) l (ef_next (view w1)) (ef_current (view w1))) \/ (r = Err /\ view w' = view w1)).
  { intros l Hn Hr. unfold text_call in Hr. destruct (run w1 _) as [w2 o] eqn:E2. apply pair_equal_spec in Hr as [<- <-].
    destruct (et_order _ _ T _ _ _ _ E2 Hn) as [(F & V)|(O & V)].
    - right. rewrite (failed_not_ok _ F). auto.
    - left. apply outcome_ok in O. rewrite O. auto. }
  assert (N : Forall boot_number (map fst (remove_first (in_order i) (sn_bootname s)))).
  { apply (in_number (view w1)); [exact S1|]. intros x Hx. apply G2. exact (remove_incl _ _ _ Hx). }
  destruct (by_name_in _ _ _ Be) as (Hin & _). rewrite G1 in Hin.
  assert (Ne : boot_number (fst e)). { destruct S1 as (S1 & _). rewrite Forall_forall in S1. exact (proj1 (S1 e Hin)). }
  destruct prepend.
  - destruct (Q (map fst (e :: remove_first (in_order i) (sn_bootname s))) (Forall_cons _ Ne N) H) as [(-> & V)|(-> & V)].
    + left. split; [reflexivity|]. exists create. split; [exact Hc|]. unfold efi_modify_order. rewrite Hp. cbn [bind]. rewrite Be, V. reflexivity.
    + right. split; [reflexivity|]. rewrite V. exact M.
  - destruct (Q (map fst (remove_first (in_order i) (sn_bootname s))) N H) as [(-> & V)|(-> & V)].
    + left. split; [reflexivity|]. exists create. split; [exact Hc|]. unfold efi_modify_order. rewrite Hp. cbn [bind]. rewrite V. reflexivity.
    + right. split; [reflexivity|]. rewrite V. exact M.
Qed.
Lemma temp_ok : forall W (run : program W) view s w w' r, efi_tool run view -> showable (view w) -> label_ok (sn_bootname s) ->
  text_set_temp_primary run s w = (w', r) ->
  (r = Ok tt /\ exists create, created_by (view w) (sn_bootname s) create /\ efi_set_temp_primary (view w) (sn_bootname s) create = Ok (view w')) \/
  (r = Err /\ maybe_created (view w) (sn_bootname s) (view w')).
Proof.
  intros W run view s w w' r T Hs Hl H. unfold text_set_temp_primary in H. destruct (text_prepare run s w) as [w1 r1] eqn:E1.
  destruct (prepare_ok _ _ _ _ _ _ _ T Hs Hl E1) as (M & S1 & NA & P). destruct r1 as [i| |]; [|right; apply pair_equal_spec in H as [<- <-]; auto|congruence].
  destruct (P i eq_refl) as (create & Hc & Hp & G1 & G2 & e & Be). rewrite Be in H.
  destruct (by_name_in _ _ _ Be) as (Hin & _). rewrite G1 in Hin.
  assert (Ne : boot_number (fst e)). { destruct S1 as (S1 & _). rewrite Forall_forall in S1. exact (proj1 (S1 e Hin)). }
  unfold text_call in H. destruct (run w1 _) as [w2 o] eqn:E2. apply pair_equal_spec in H as [<- <-].
  destruct (et_next _ _ T _ _ _ _ E2 Ne) as [(F & V)|(O & V)].
  - right. rewrite (failed_not_ok _ F), V. auto.
  - left. apply outcome_ok in O. rewrite O. split; [reflexivity|]. exists create. split; [exact Hc|]. unfold efi_set_temp_primary. rewrite Hp. cbn [bind]. rewrite Be, V. reflexivity.
Qed.
Lemma c67_set_primary_ok : forall W (run : program W) view use_next s w w' r, efi_tool run view -> showable (view w) -> label_ok (sn_bootname s) ->
  text_set_primary run use_next s w = (w', r) ->
  (r = Ok tt /\ exists create, created_by (view w) (sn_bootname s) create /\ efi_set_primary use_next (view w) (sn_bootname s) create = Ok (view w')) \/
  (r = Err /\ maybe_created (view w) (sn_bootname s) (view w')).
Proof.
  intros W run view use_next s w w' r T Hs Hl H. unfold text_set_primary in H. unfold efi_set_primary. destruct use_next; [eapply temp_ok|eapply modify_ok]; eassumption.
Qed.
Lemma c67_set_state_ok : forall W (run : program W) view good s w w' r, efi_tool run view -> showable (view w) -> label_ok (sn_bootname s) ->
  text_set_state run s good w = (w', r) ->
  (r = Ok tt /\ exists create, created_by (view w) (sn_bootname s) create /\ efi_set_state (view w) (sn_bootname s) good create = Ok (view w')) \/
  (r = Err /\ maybe_created (view w) (sn_bootname s) (view w')).
Proof. intros W run view good s w w' r T Hs Hl H. eapply modify_ok; eassumption. Qed.
(** reading *)
Lemma c67_read_ok : forall W (run : program W) view w slots b, efi_tool run view -> showable (view w) ->
  (forall w' r, text_get_primary run slots w = (w', r) -> view w' = view w /\ (r = Err \/ r = efi_get_primary (view w) slots)) /\
  (forall w' r, text_get_state run b w = (w', r) -> view w' = view w /\ (r = Err \/ r = efi_get_state (view w) b)) /\
  (forall w' r, text_get_current run slots w = (w', r) -> view w' = view w /\ (r = Err \/ r = efi_get_current_bootname (view w) slots)).
Proof.
  intros W run view w slots b T Hs. unfold text_get_primary, text_get_state, text_get_current, efi_get_primary, efi_get_state, efi_get_current_bootname.
  destruct (text_bootorder_get run w) as [w1 r1] eqn:E. destruct (c67_get_ok _ _ _ _ _ _ T Hs E) as (V & R).
  split; [|split]; intros w' r H; apply pair_equal_spec in H as [<- <-]; (split; [exact V|]); (destruct R as [->|R]; [left; reflexivity|right; rewrite R; reflexivity]).
Qed.

(** ** what it means for the boot sequence *)
Lemma maybe_names : forall st b st', efi_wf st -> no_stale st -> maybe_created st b st' -> order_names st' = order_names st /\ next_name st' = next_name st.
Proof.
  intros st b st' Hw (H1 & H2) [->|(n & Hn & He & Ho & Hx & _)]; [auto|]. split.
  - unfold order_names. rewrite Ho, He. clear Ho. induction (ef_order st) as [|m l IH]; [reflexivity|]. cbn [flat_map]. rewrite IH by (intros; apply H1; right; assumption). f_equal.
    rewrite find_app. pose proof (by_num_found _ _ (H1 m (or_introl eq_refl))) as B. unfold by_num in B. destruct (find (fun e => String.eqb m (fst e)) (ef_entries st)); [reflexivity|exfalso; apply B; reflexivity].
  - unfold next_name. rewrite Hx, He. destruct (ef_next st) as [m|] eqn:E; [|reflexivity]. rewrite find_app.
    pose proof (by_num_found _ _ (H2 m eq_refl)) as B. unfold by_num in B. destruct (find (fun e => String.eqb m (fst e)) (ef_entries st)); [reflexivity|exfalso; apply B; reflexivity].
Qed.
Lemma c67_primary_ok : forall W (run : program W) view use_next s w w' r, efi_tool run view -> showable (view w) -> efi_wf (view w) -> no_stale (view w) ->
  label_ok (sn_bootname s) -> text_set_primary run use_next s w = (w', r) ->
  (r = Ok tt /\
   (if use_next then boot_sequence (view w') = sn_bootname s :: order_names (view w) /\ order_names (view w') = order_names (view w)
    else order_names (view w') = sn_bootname s :: remove_name (order_names (view w)) (sn_bootname s) /\ next_name (view w') = next_name (view w))) \/
  (r = Err /\ boot_sequence (view w') = boot_sequence (view w)).
Proof.
  intros W run view use_next s w w' r T Hs Hw Hn Hl H. destruct (c67_set_primary_ok _ _ _ _ _ _ _ _ T Hs Hl H) as [(-> & create & Hc & E)|(-> & M)].
  - left. split; [reflexivity|].
    assert (UN : unique_names [mkSlot "a" "" "" "" (Some (sn_bootname s)) None false false]) by (constructor; [intros []|constructor]).
    assert (UB : unique_bootnames [mkSlot "a" "" "" "" (Some (sn_bootname s)) None false false]).
    { intros x y b [<-|[]] [<-|[]] _ _. reflexivity. }
    destruct use_next.
    + destruct (efi_set_primary_next_ok _ [mkSlot "a" "" "" "" (Some (sn_bootname s)) None false false] _ _ _ _ Hw Hn UN UB (or_introl eq_refl) eq_refl Hc E) as (_ & A & B). auto.
    + destruct (efi_set_primary_order_ok _ [mkSlot "a" "" "" "" (Some (sn_bootname s)) None false false] _ _ _ _ Hw Hn UN UB (or_introl eq_refl) eq_refl Hc E) as (A & B & _). auto.
  - right. split; [reflexivity|]. destruct (maybe_names _ _ _ Hw Hn M) as (A & B). unfold boot_sequence. rewrite A, B. reflexivity.
Qed.
Lemma c67_state_ok : forall W (run : program W) view good s w w' r, efi_tool run view -> showable (view w) -> efi_wf (view w) -> no_stale (view w) ->
  label_ok (sn_bootname s) -> text_set_state run s good w = (w', r) ->
  (r = Ok tt /\ next_name (view w') = next_name (view w) /\
   order_names (view w') = (if good then [sn_bootname s] else []) ++ remove_name (order_names (view w)) (sn_bootname s)) \/
  (r = Err /\ boot_sequence (view w') = boot_sequence (view w)).
Proof.
  intros W run view good s w w' r T Hs Hw Hn Hl H. destruct (c67_set_state_ok _ _ _ _ _ _ _ _ T Hs Hl H) as [(-> & create & Hc & E)|(-> & M)].
  - left. split; [reflexivity|]. destruct (efi_set_state_ok _ _ _ _ _ Hw Hn Hc E) as (A & B). auto.
  - right. split; [reflexivity|]. destruct (maybe_names _ _ _ Hw Hn M) as (A & B). unfold boot_sequence. rewrite A, B. reflexivity.
Qed.

(** nothing fails for a tool which does not *)
Lemma c67_live_ok : forall W (run : program W) view use_next good s w n,
  efi_tool run view ->
  (forall w args, args = [] \/ (exists o, args = ["--bootorder"; o]) \/ (exists m, args = ["--bootnext"; m]) -> exists w' out, run w args = (w', Ran out (Some 0))) ->
  showable (view w) -> ef_order (view w) <> [] -> In (n, sn_bootname s) (ef_entries (view w)) ->
  (exists w', text_set_primary run use_next s w = (w', Ok tt)) /\ (exists w', text_set_state run s good w = (w', Ok tt)) /\
  (exists w', text_get_state run (sn_bootname s) w = (w', efi_get_state (view w) (sn_bootname s))).
Proof.
  intros W run view use_next good s w n T L Hs Ho He.
  destruct (L w [] (or_introl eq_refl)) as (w1 & out & R). destruct (et_show _ _ T _ _ _ R) as (V & [F|(out' & E & P)]); [exfalso; exact (F out eq_refl)|]. injection E as <-.
  assert (G : text_bootorder_get run w = (w1, efi_bootorder_get (view w))).
  { unfold text_bootorder_get. rewrite R. cbn [Nat.eqb]. rewrite (c67_parse_ok _ _ Hs P). reflexivity. }
  assert (exists i, efi_bootorder_get (view w) = Ok i /\ in_all i = ef_entries (view w)) as (i & Gi & Ga).
  { unfold efi_bootorder_get. destruct (ef_entries (view w)) eqn:E1; [destruct He|]. destruct (ef_order (view w)) eqn:E2; [congruence|]. eexists. split; reflexivity. }
  assert (exists e', by_name (in_all i) (sn_bootname s) = Some e') as (e' & Be).
  { rewrite Ga. unfold by_name. destruct (find (fun e => String.eqb (snd e) (sn_bootname s)) (ef_entries (view w))) as [x|] eqn:Fx; [eauto|].
    pose proof (find_none _ _ Fx _ He) as X. cbn [snd] in X. rewrite String.eqb_refl in X. discriminate X. }
  assert (CALL : forall v args, args = [] \/ (exists o, args = ["--bootorder"; o]) \/ (exists m, args = ["--bootnext"; m]) -> exists v', text_call run args v = (v', Ok tt)).
  { intros v args Ha. unfold text_call. destruct (L v args Ha) as (v' & out' & R'). rewrite R'. cbn. eauto. }
  assert (PREP : text_prepare run s w = (w1, Ok i)) by (unfold text_prepare; rewrite G, Gi, Be; reflexivity).
  split; [|split].
  - unfold text_set_primary, text_set_temp_primary, text_modify_order. rewrite PREP, Be. destruct use_next; apply CALL; eauto.
  - unfold text_set_state, text_modify_order. rewrite PREP, Be. destruct good; apply CALL; eauto.
  - unfold text_get_state. rewrite G. eauto.
Qed.

(** ** a tool *)
Definition demo_show (st : efi) : string :=
  text_of (opt_line "BootNext: " (ef_next st) ++ opt_line "BootCurrent: " (ef_current st) ++ ["Timeout: 2 seconds"] ++ [order_line (ef_order st)] ++
           map (fun e => "Boot" ++ fst e ++ "*" ++ " " ++ snd e ++ "")%string (ef_entries st) ++ []).
Definition demo_fresh (st : efi) : option string :=
  find (fun n => negb (existsb (String.eqb n) (map fst (ef_entries st)))) ["0000"; "0001"; "0002"; "0003"].
Definition demo_run : program efi := fun st args =>
  match args with
  | [] => (st, Ran (demo_show st) (Some 0))
  | ["--bootorder"; o] => (mkEfi (ef_entries st) (g_strsplit "," o) (ef_next st) (ef_current st), Ran (demo_show st) (Some 0))
  | ["--bootnext"; n] => (mkEfi (ef_entries st) (ef_order st) (Some n) (ef_current st), Ran (demo_show st) (Some 0))
  | [_; _; _; _; _; _; b; _; _; _; _] =>
      match demo_fresh st with
      | Some n => (mkEfi (ef_entries st ++ [(n, b)]) (ef_order st) (ef_next st) (ef_current st), Ran (demo_show st) (Some 0))
      | None => (st, Ran "" (Some 2))
      end
  | _ => (st, Ran "" (Some 1))
  end.
Lemma c67_demo : efi_tool demo_run (fun st => st).
Proof.
  constructor.
  - intros w w' o H. cbn in H. apply pair_equal_spec in H as [<- <-]. split; [reflexivity|]. right. eexists. split; [reflexivity|].
    exists [], [], ["Timeout: 2 seconds"], [], (map (fun e => "Boot" ++ fst e ++ "*" ++ " " ++ snd e ++ "")%string (ef_entries w)).
    split; [|split; [|reflexivity]].
    + constructor; [|constructor]. repeat split; reflexivity.
    + induction (ef_entries w) as [|[n b] es IH]; constructor; [|exact IH]. apply (Shown n b "*" ""); left; reflexivity.
  - intros w w' o l H Hl. cbn in H. apply pair_equal_spec in H as [<- <-]. right. split; [eauto|]. f_equal.
    destruct l as [|n l]; [reflexivity|]. apply strsplit_order; [exact Hl|discriminate].
  - intros w w' o n H Hl. cbn in H. apply pair_equal_spec in H as [<- <-]. right. split; [eauto|reflexivity].
  - intros w w' o disk part b l c H. cbn [demo_run] in H. destruct (demo_fresh w) as [n|] eqn:F.
    + apply pair_equal_spec in H as [<- <-]. right. split; [eauto|]. unfold demo_fresh in F. apply find_some in F as [F1 F2]. split.
      * exists n. split; [|repeat split]. intros Hin. apply negb_true_iff in F2. assert (X : existsb (String.eqb n) (map fst (ef_entries w)) = true); [|congruence].
        apply existsb_exists. exists n. split; [exact Hin|apply String.eqb_refl].
      * intros (S1 & S2 & S3 & S4) Hb. split; [|auto]. cbn [ef_entries]. apply Forall_app. split; [exact S1|]. constructor; [|constructor]. cbn [fst snd]. split; [|exact Hb].
        cbn [In] in F1. repeat (destruct F1 as [<-|F1]; [split; reflexivity|]). destruct F1.
    + apply pair_equal_spec in H as [<- <-]. left. split; [intros out X; discriminate X|reflexivity].
Qed.

Lemma c67_demo_live : forall w args, args = [] \/ (exists o, args = ["--bootorder"; o]) \/ (exists m, args = ["--bootnext"; m]) -> exists w' out, demo_run w args = (w', Ran out (Some 0)).
Proof. intros w args [->|[(o & ->)|(m & ->)]]; cbn; eauto. Qed.

(** An entry without a label is not seen; setting the primary removes it from the boot order. *)
Lemma c67_empty_label_refuted : exists (run : program efi) st s st', efi_tool run (fun x => x) /\ efi_wf st /\ no_stale st /\ label_ok (sn_bootname s) /\
  text_set_primary run false s st = (st', Ok tt) /\ In "0002" (ef_order st) /\ In ("0002", "") (ef_entries st') /\ ~ In "0002" (ef_order st').
Proof.
  exists demo_run, (mkEfi [("0001", "A"); ("0002", "")] ["0002"; "0001"] None (Some "0002")), (mkEfislot "A" None None None), (mkEfi [("0001", "A"); ("0002", "")] ["0001"] None (Some "0002")).
  split; [exact c67_demo|]. split; [|split; [|split; [|split; [|split; [|split]]]]].
  - repeat constructor; cbn; intuition discriminate.
  - split; cbn; intros n; [intuition subst; auto|discriminate].
  - repeat split; discriminate.
  - reflexivity.
  - cbn; auto.
  - cbn; auto.
  - cbn. intuition discriminate.
Qed.
(** A label with a newline in it can show a boot order that is not there. *)
Lemma c67_newline_label_refuted : exists (run : program efi) st b, efi_tool run (fun x => x) /\ efi_wf st /\ no_stale st /\
  ~ In b (order_names st) /\ text_get_state run b st = (st, Ok true).
Proof.
  exists demo_run, (mkEfi [("0001", String "A" (String "010" "Boot0000* B")); ("0000", "C")] ["0000"] None None), "B". split; [exact c67_demo|]. split; [|split; [|split]].
  - repeat constructor; cbn; intuition discriminate.
  - split; cbn; intros n; [intuition|discriminate].
  - cbn. intuition discriminate.
  - reflexivity.
Qed.

(** ** only these calls: a program that behaves the same for them gives the same results *)
Lemma c67_calls_ok : forall W (run run' : program W) use_next good s w,
  (forall w args, call_for s args -> run' w args = run w args) ->
  text_set_primary run' use_next s w = text_set_primary run use_next s w /\ text_set_state run' s good w = text_set_state run s good w.
Proof.
  intros W run run' use_next good s w H.
  assert (G : forall w, text_bootorder_get run' w = text_bootorder_get run w).
  { intros x. unfold text_bootorder_get. rewrite H by (left; reflexivity). reflexivity. }
  assert (C : forall w, text_create run' s w = text_create run s w).
  { intros x. unfold text_create. destruct (sn_loader s) eqn:E1, (sn_cmdline s) eqn:E2, (sn_dev s) as [[? ?]|] eqn:E3; try reflexivity. unfold text_call. rewrite H; [reflexivity|].
    right. right. right. do 4 eexists. repeat split; try eassumption. }
  assert (P : text_prepare run' s w = text_prepare run s w).
  { unfold text_prepare. rewrite G. destruct (text_bootorder_get run w) as [w1 [i| |]]; try reflexivity.
    destruct (by_name (in_all i) (sn_bootname s)); [reflexivity|]. rewrite C. destruct (text_create run s w1) as [w2 [u| |]]; try reflexivity. apply G. }
  assert (M : forall b, text_modify_order run' s b w = text_modify_order run s b w).
  { intros b. unfold text_modify_order. rewrite P. destruct (text_prepare run s w) as [w1 [i| |]]; try reflexivity.
    unfold text_call. destruct b.
    - destruct (by_name (in_all i) (sn_bootname s)); [|reflexivity]. rewrite H; [reflexivity|]. right. left. eexists. reflexivity.
    - rewrite H; [reflexivity|]. right. left. eexists. reflexivity. }
  split.
  - unfold text_set_primary. destruct use_next; [|apply M]. unfold text_set_temp_primary. rewrite P. destruct (text_prepare run s w) as [w1 [i| |]]; try reflexivity.
    destruct (by_name (in_all i) (sn_bootname s)); [|reflexivity]. unfold text_call. rewrite H; [reflexivity|]. right. right. left. eexists. reflexivity.
  - apply M.
Qed.
