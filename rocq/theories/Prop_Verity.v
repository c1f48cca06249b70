(** C21: dm-verity hash trees. *)
From Verif Require Import Base Disk DiskLemmas BootRegionSpec ExactIO ExactIOProofs HashIndex HashIndexSpec Verity VeritySpec VerityLayout VerityProofs VerityTop.

Theorem C21_create : forall H salt o n f r f', (forall x, List.length (H x) = 32) ->
  verity_create H salt o n f = (r, f') ->
  (* the payload is never modified *)
  (forall p, (p < n * 4096)%N -> vf_disk f' p = vf_disk f p) /\
  (* success: the hash tree is complete behind it, and nothing else was written *)
  (forall e root, r = Some (e, root) ->
     exists L, verity_format H salt (vf_disk f') n L root /\ e = vtotal n L /\ (e * 4096 <= vf_size f')%N /\
       same_outside (n * 4096) (e * 4096) (vf_disk f) (vf_disk f')).
Proof. exact c21_create_ok. Qed.
Print Assumptions C21_create.
Theorem C21_verify : forall H salt o n root f f', (forall x, List.length (H x) = 32) ->
  verity_verify H salt o n root f = (V0, f') ->
  vf_disk f' = vf_disk f /\ vf_size f' = vf_size f /\
  exists L, verity_format H salt (vf_disk f) n L root /\ (vtotal n L * 4096 <= vf_size f)%N.
Proof. exact c21_verify_ok. Qed.
Print Assumptions C21_verify.
Theorem C21_complete : forall H salt o n L root f, (forall x, List.length (H x) = 32) -> no_errors o ->
  verity_format H salt (vf_disk f) n L root -> (0 < n)%N -> (vtotal n L * 4096 <= vf_size f)%N -> (vf_size f < 2 ^ 64)%N ->
  exists f', verity_verify H salt o n root f = (V0, f').
Proof. exact c21_complete_ok. Qed.
Print Assumptions C21_complete.
Theorem C21_create_verify : forall H salt o o' n f e root f', (forall x, List.length (H x) = 32) -> no_errors o' ->
  verity_create H salt o n f = (Some (e, root), f') ->
  exists f'', verity_verify H salt o' n root f' = (V0, f'') /\ vf_disk f'' = vf_disk f'.
Proof. exact c21_create_verify_ok. Qed.
Print Assumptions C21_create_verify.
Theorem C21_binding : forall H salt o1 o2 n root f1 f2 f1' f2', (forall x, List.length (H x) = 32) ->
  verity_verify H salt o1 n root f1 = (V0, f1') -> verity_verify H salt o2 n root f2 = (V0, f2') ->
  (* the payloads are equal *)
  (forall p, (p < n * 4096)%N -> vf_disk f1 p = vf_disk f2 p) \/
  (* or two blocks at the same place collide *)
  exists q, ((q + 1) * 4096 <= vf_size f1)%N /\ collision H (salt ++ vblock (vf_disk f1) q) (salt ++ vblock (vf_disk f2) q).
Proof. exact c21_binding_ok. Qed.
Print Assumptions C21_binding.
Theorem C21_layout : forall n L, (0 < n)%N -> depth n L ->
  (* data and levels are disjoint, and the tree is smaller than the data *)
  (forall i, 0 < i <= L -> (n <= lstart n L i)%N /\ (lstart n L i + lcount n i <= vtotal n L)%N) /\
  (forall i j, 0 < i < j -> j <= L -> (lstart n L j + lcount n j <= lstart n L i)%N) /\
  (vtotal n L < 2 * n)%N.
Proof. exact c21_layout_ok. Qed.
Print Assumptions C21_layout.

(** ** examples, with a toy hash *)
Definition Htoy (l : list byte) : digest := firstn 32 (l ++ repeat 0%N 32).
Lemma Htoy_length l : List.length (Htoy l) = 32.
Proof. unfold Htoy. rewrite firstn_length, app_length, repeat_length. lia. Qed.
Definition o_ok : voracle := fun _ => None.
Definition ex_vf : vfile := mkVf 0 8192 (fun p => if (p <? 4096)%N then 7%N else 8%N).
Definition ex_made := verity_create Htoy [] o_ok 2 ex_vf.
Example C21_example :
  fst ex_made = Some (3, repeat 7 32)%N /\ fst (verity_verify Htoy [] o_ok 2 (repeat 7%N 32) (snd ex_made)) = V0 /\
  fst (verity_verify Htoy [] o_ok 2 (repeat 6%N 32) (snd ex_made)) = VEperm /\
  fst (verity_verify Htoy [] o_ok 2 (repeat 7%N 32) (mkVf 0 12288 (dwrite (vf_disk (snd ex_made)) 4099 [9]%N))) = VEperm /\
  fst (verity_verify Htoy [] o_ok 2 (repeat 7%N 32) (mkVf 0 8192 (vf_disk (snd ex_made)))) = VEio.
Proof. sp; vm_compute; reflexivity. Qed.
Example C21_no_errors : no_errors o_ok. Proof. intros k. reflexivity. Qed.
(** 129 data blocks: two levels, the top one first *)
Example C21_levels : hash_levels 129 = Some ([(130, 2); (129, 1)], 132)%N /\ depth 129 2 /\ lstart 129 2 1 = 130%N /\ lstart 129 2 2 = 129%N.
Proof. sp; try (vm_compute; reflexivity). split; [vm_compute; reflexivity|]. intros [|[|l]] Hl; [vm_compute; discriminate..|lia]. Qed.
