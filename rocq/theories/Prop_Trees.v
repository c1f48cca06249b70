(** C77: removing directory trees and pruning artifacts. *)
From Verif Require Import Base Trees TreesSpec TreesProofs.
Open Scope list_scope.

Theorem C77_rm_tree : forall e f p ok f', wf_fs f -> real_dirs f p -> rm_tree e f p = (ok, f') ->
  (forall q, ~ below p q -> lookup f' q = lookup f q) /\
  (forall q n, lookup f' q = Some n -> lookup f q = Some n) /\
  (ok = true -> forall q, below p q -> lookup f' q = None).
Proof. exact c77_rm_ok. Qed.
Print Assumptions C77_rm_tree.
Theorem C77_rm_complete : forall e f p n, wf_fs f -> real_dirs f p -> p <> [] -> lookup f p = Some n ->
  (forall q m, below p q -> lookup f q = Some m -> nd_dev m = nd_dev n /\ e_keep e q = false /\ e_unreadable e q = false) ->
  fst (rm_tree e f p) = true.
Proof. exact c77_rm_complete_ok. Qed.
Print Assumptions C77_rm_complete.
Theorem C77_open : forall e f p n, wf_fs f -> real_dirs f p -> p <> [] -> lookup f p = Some n ->
  (tree_check_open e f p = Unused -> forall q o d, same_fs f p q (nd_dev n) -> lookup f q = Some (mkNode (KFile o) d) -> o = false) /\
  (tree_check_open e f p = InUse -> exists q, below p q /\ lookup f q = Some (mkNode (KFile true) (nd_dev n))) /\
  ((forall q m, below p q -> lookup f q = Some m ->
      match nd_kind m with
      | KDir => e_unreadable e q = false
      | KFile o => o = false /\ e_noopen e q = false /\ e_nolease e q = false
      | KLink _ => True
      | KFifo | KDevice => False
      end) -> tree_check_open e f p = Unused).
Proof. exact c77_open_ok. Qed.
Print Assumptions C77_open.
Theorem C77_prune : forall e f p n r f', wf_fs f -> real_dirs f p -> p <> [] -> lookup f p = Some n -> prune_artifact e f p = (r, f') ->
  (forall q, ~ below p q -> lookup f' q = lookup f q) /\
  (forall q, same_fs f p q (nd_dev n) -> lookup f q = Some (mkNode (KFile true) (nd_dev n)) -> f' = f /\ r <> Some (Ok true)) /\
  (r = Some (Ok true) -> forall q, below p q -> lookup f' q = None) /\
  (r = Some (Ok false) -> f' = f /\ exists q, below p q /\ lookup f q = Some (mkNode (KFile true) (nd_dev n))).
Proof. exact c77_prune_ok. Qed.
Print Assumptions C77_prune.
Theorem C77_fifo_refuted : exists f p, wf_fs f /\ real_dirs f p /\
  (forall q n, lookup f q = Some n -> nd_dev n = 1%N /\ nd_kind n <> KFile true) /\
  prune_artifact plain_env f p = (None, f).
Proof. exact c77_fifo_refuted. Qed.
Print Assumptions C77_fifo_refuted.
Theorem C77_device_refuted : exists f p, wf_fs f /\ real_dirs f p /\
  (forall q n, lookup f q = Some n -> nd_dev n = 1%N /\ nd_kind n <> KFile true) /\
  prune_artifact plain_env f p = (Some Err, f).
Proof. exact c77_device_refuted. Qed.
Print Assumptions C77_device_refuted.
Theorem C77_names : forall cwd base,
  (forall l, resolve_path cwd base l = None <-> l = None) /\
  (forall u, resolve_path cwd base (Some (LUri u)) = Some (LUri u)) /\
  (forall n, fn_abs n = true -> resolve_path cwd base (Some (LFile n)) = Some (LFile n)) /\
  (forall n, fn_abs cwd = true -> exists m, resolve_path cwd base (Some (LFile n)) = Some (LFile m) /\ fn_abs m = true) /\
  (forall b parts dir file, base = Some b -> b = mkFname true (dir ++ [file]) ->
     resolve_path cwd base (Some (LFile (mkFname false parts))) = Some (LFile (mkFname true (dir ++ parts)))) /\
  (forall parts, base = None -> resolve_path cwd base (Some (LFile (mkFname false parts))) = Some (LFile (mkFname (fn_abs cwd) (fn_parts cwd ++ parts)))).
Proof. exact c77_names_ok. Qed.
Print Assumptions C77_names.

(** a tree with a link to a directory outside of it: only the link is removed *)
Definition link_fs : fs :=
  [(["etc"], mkNode KDir 1); (["etc"; "passwd"], mkNode (KFile false) 1); (["r"], mkNode KDir 1); (["r"; "art"], mkNode KDir 1);
   (["r"; "art"; "x"], mkNode (KLink ["etc"]) 1); (["r"; "art"; "sub"], mkNode KDir 1); (["r"; "art"; "sub"; "f"], mkNode (KFile false) 1)].
Example C77_example_link : rm_tree plain_env link_fs ["r"; "art"] =
  (true, [(["etc"], mkNode KDir 1); (["etc"; "passwd"], mkNode (KFile false) 1); (["r"], mkNode KDir 1)]).
Proof. vm_compute. reflexivity. Qed.
(** something mounted below keeps the tree; nothing on it is removed *)
Example C77_example_mount :
  let f := link_fs ++ [(["r"; "art"; "mnt"], mkNode KDir 2); (["r"; "art"; "mnt"; "data"], mkNode (KFile false) 2)] in
  fst (rm_tree plain_env f ["r"; "art"]) = false /\
  lookup (snd (rm_tree plain_env f ["r"; "art"])) ["r"; "art"; "mnt"; "data"] = Some (mkNode (KFile false) 2).
Proof. vm_compute. auto. Qed.
(** an artifact with an open file is kept, and removed later *)
Example C77_example_open :
  prune_artifact plain_env (fifo_fs (KFile true)) ["r"; "art"] = (Some (Ok false), fifo_fs (KFile true)) /\
  prune_artifact plain_env (fifo_fs (KFile false)) ["r"; "art"] = (Some (Ok true), [(["r"], mkNode KDir 1)]) /\
  wf_fs (fifo_fs (KFile true)) /\ real_dirs (fifo_fs (KFile true)) ["r"; "art"].
Proof. split; [reflexivity|]. split; [reflexivity|]. apply fifo_wf. Qed.
(** a path through a link resolves into another tree: real_dirs is needed *)
Example C77_example_via_link : exists f,
  rm_tree plain_env link_fs ["r"; "art"; "x"; "passwd"] = (true, f) /\ lookup f ["etc"; "passwd"] = None.
Proof. eexists. split; vm_compute; reflexivity. Qed.
Example C77_example_names :
  resolve_path (mkFname true ["home"]) (Some (mkFname true ["etc"; "rauc"; "system.conf"])) (Some (LFile (mkFname false ["ca.pem"])))
  = Some (LFile (mkFname true ["etc"; "rauc"; "ca.pem"])).
Proof. reflexivity. Qed.
