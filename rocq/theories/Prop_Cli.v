(** C71: what a call of rauc does and how it ends. *)
From Verif Require Import Base BaseLemmas Slot Image Handlers Install InstallSpec InstallRun InstallRunSpec Cli CliSpec CliProofs CliWriteProofs.
Open Scope list_scope.

Theorem C71_run : forall f W e o name c args, reaches f e o name c -> c <> CHelp ->
  let r := rauc f W e o (name :: args) in
  (exists ops, asks f e o c args ops /\ outcome ops e r) \/ ((forall ops, ~ asks f e o c args ops) /\ usage r).
Proof. exact c71_run_ok. Qed.
Print Assumptions C71_run.
Theorem C71_one_meaning : forall f e o c args a b, asks f e o c args a -> asks f e o c args b -> a = b.
Proof. exact c71_one_meaning_ok. Qed.
Print Assumptions C71_one_meaning.
Theorem C71_refused : forall f W e o name args, (forall c, ~ reaches f e o name c) ->
  let r := rauc f W e o (name :: args) in
  snd r = [] /\ (~ given o "help" -> fst r = 1).
Proof. exact c71_refused_ok. Qed.
Print Assumptions C71_refused.
Theorem C71_nothing : forall f W e o, let r := rauc f W e o [] in
  snd r = [] /\ (fst r = 0 <-> given o "version" \/ given o "help") /\ fst r <= 1.
Proof. exact c71_nothing_ok. Qed.
Print Assumptions C71_nothing.
Theorem C71_verification : forall f W e o args b nv nt te ac r, In (OCheck b nv nt te ac, r) (snd (rauc f W e o args)) ->
  exists name c rest, args = name :: rest /\ In (name, c) (commands f) /\
    (exists a, In a rest /\ (b = a \/ e_resolve e a = Some b)) /\
    (nv = true -> given o "no-verify" /\ In c [CResign; CReplaceSig; CConvert; CInfo]) /\
    (nt = true -> given o "no-check-time" /\ In c [CResign; CInfo]) /\
    (te = true -> given o "trust-environment" /\ In c [CReplaceSig; CExtractSig; CExtract; CConvert]).
Proof. exact c71_flags_ok. Qed.
Print Assumptions C71_verification.
Theorem C71_checked_first : forall f W e o args pre x r post, snd (rauc f W e o args) = pre ++ (x, r) :: post -> needs_bundle x ->
  exists b nv nt te ac, In (OCheck b nv nt te ac, true) pre.
Proof. exact c71_checked_ok. Qed.
Print Assumptions C71_checked_first.
Theorem C71_keys : forall f W e o args x r, In (x, r) (snd (rauc f W e o args)) ->
  match x with OCreate _ _ | OResign _ _ | OConvert _ _ => True | _ => False end -> given o "cert" /\ given o "key".
Proof. exact c71_keys_ok. Qed.
Print Assumptions C71_keys.
Theorem C71_readonly : forall f W e o args slot image ty r, In (OWrite slot image ty, r) (snd (rauc f W e o args)) ->
  NoDup (map fst (e_slots e)) -> In (slot, false) (e_slots e) /\ ~ In (slot, true) (e_slots e).
Proof. exact c71_readonly_ok. Qed.
Print Assumptions C71_readonly.
Theorem C71_outside : forall cwd ic oc content, ic <> [] -> Forall component ic -> Forall component oc ->
  content = abs_path ic \/ content = (abs_path ic ++ "/")%string ->
  outside_check cwd content (abs_path oc) = true -> forall r file, oc <> ic ++ r ++ [file].
Proof. exact c71_outside_ok. Qed.
Print Assumptions C71_outside.
Theorem C71_dot_refuted : exists cwd content out, component content /\
  outside_check cwd ("./" ++ content) out = true /\
  exists r file, location (resolve_path cwd out) = location (resolve_path cwd ("./" ++ content)) ++ r ++ [file].
Proof. exact c71_dot_accepted_refuted. Qed.
Print Assumptions C71_dot_refuted.
Theorem C71_sibling_refuted : exists cwd ic oc, Forall component ic /\ Forall component oc /\
  outside_check cwd (abs_path ic) (abs_path oc) = false /\ forall r file, oc <> ic ++ r ++ [file].
Proof. exact c71_sibling_rejected_refuted. Qed.
Print Assumptions C71_sibling_refuted.
Theorem C71_write_slot_refuted : exists s i d', sl_readonly s = false /\ im_digest i <> d' /\
  forall B (w : world B), status_true [s] w -> w_mem w (sl_name s) = mkStat (Some "ok"%string) (im_digest i) ->
  let w1 := replay w [EWrite (sl_device s) Torn; EWrite (sl_device s) (Whole d')] in
  ~ status_true [s] w1 /\
  (forall o, po_mounted o = false -> po_save_done o = true ->
    fst (handle_slot_plan false o w1 i s) = true /\
    w_dev (replay w1 (snd (handle_slot_plan false o w1 i s))) (sl_device s) = Whole d').
Proof. exact c71_write_slot_status_refuted. Qed.
Print Assumptions C71_write_slot_refuted.

Definition ex_f : features := mkFeatures true true true true.
Definition ex_e : env := mkEnv "/w" (String.eqb "/w/content") (fun b => Some ("/w/" ++ b)%string) (fun _ => true)
  [("rootfs.0", true); ("rootfs.1", false)]%string (fun _ => true) (fun _ _ => true) false 0.
Definition ex_fail : oracle := fun l x => match x with OResign _ _ => false | _ => true end.

Example C71_run_example : reaches ex_f ex_e [("cert", "c"); ("no-verify", ""); ("key", "k")]%string "resign" CResign /\
  rauc ex_f ex_fail ex_e [("cert", "c"); ("no-verify", ""); ("key", "k")]%string ["resign"; "a"; "b"]%string =
    (1, [(OCheck "a" true false false false, true); (OResign "b" false, false)]).
Proof.
  split; [|reflexivity]. split; [cbn; tauto|]. split; [|split; [|reflexivity]].
  - intros n v Hin. cbn in Hin. destruct Hin as [H|[H|[H|[]]]]; injection H as <- <-; vm_compute; tauto.
  - intros (v & [H|[H|[H|[]]]]); discriminate H.
Qed.
Example C71_info_example :
  rauc ex_f (fun _ _ => true) ex_e [("output-format", "shell"); ("output-format", "json-2")]%string ["info"; "a.raucb"]%string =
    (0, [(OCheck "/w/a.raucb" false false false true, true); (OLoadManifest, true); (OShow "json-2", true)]) /\
  rauc ex_f (fun _ _ => true) ex_e [("output-format", "xml")]%string ["info"; "a.raucb"]%string = (1, []) /\
  rauc ex_f (fun _ _ => true) ex_e [("no-verify", "")]%string ["extract"; "a.raucb"; "d"]%string = (1, []) /\
  rauc ex_f (fun _ _ => true) ex_e [("no-check-time", "")]%string ["install"; "a.raucb"]%string = (1, []).
Proof. repeat split. Qed.
Example C71_write_example :
  rauc ex_f (fun _ _ => true) ex_e [] ["write-slot"; "rootfs.1"; "x.ext4"]%string = (0, [(OWrite "rootfs.1" "x.ext4" "ext4", true)]) /\
  rauc ex_f (fun _ _ => true) ex_e [("image-type", "raw")]%string ["write-slot"; "rootfs.1"; "x.ext4"]%string = (0, [(OWrite "rootfs.1" "x.ext4" "raw", true)]) /\
  rauc ex_f (fun _ _ => true) ex_e [] ["write-slot"; "rootfs.0"; "x.ext4"]%string = (1, []) /\
  rauc ex_f (fun _ _ => true) ex_e [] ["write-slot"; "rootfs.1"; "x.foo"]%string = (1, []) /\ NoDup (map fst (e_slots ex_e)).
Proof. repeat split; try (vm_compute; reflexivity). repeat constructor; cbn; intuition discriminate. Qed.
Example C71_bundle_example :
  rauc ex_f (fun _ _ => true) ex_e [("cert", "c"); ("key", "k")]%string ["bundle"; "content"; "out/b.raucb"]%string = (0, [(OCreate "out/b.raucb" "content", true)]) /\
  rauc ex_f (fun _ _ => true) ex_e [("cert", "c"); ("key", "k")]%string ["bundle"; "content"; "content/b.raucb"]%string = (1, []) /\
  rauc ex_f (fun _ _ => true) ex_e [("cert", "c")]%string ["bundle"; "content"; "out/b.raucb"]%string = (1, []).
Proof. repeat split. Qed.
Example C71_outside_example : outside_check "/" (abs_path ["w"; "content"]%string ++ "/") (abs_path ["w"; "out"; "b"]%string) = true /\
  outside_check "/" (abs_path ["w"; "content"]%string) (abs_path ["w"; "content"; "d"; "b"]%string) = false /\ Forall component ["w"; "content"; "d"; "b"]%string.
Proof. repeat split; try discriminate; repeat constructor; discriminate. Qed.
Example C71_status_example :
  rauc ex_f (fun _ _ => true) ex_e [] ["status"; "mark-good"]%string = (0, [(OGetStatus, true); (OMark "good" "booted", true)]) /\
  rauc ex_f (fun _ _ => true) ex_e [] ["status"; "mark-bad"; "rootfs.1"]%string = (0, [(OGetStatus, true); (OMark "bad" "rootfs.1", true)]) /\
  rauc ex_f (fun _ _ => true) ex_e [] ["status"; "mark-ugly"]%string = (1, [(OGetStatus, true)]).
Proof. repeat split. Qed.
