(** Vocabulary of C61. *)
From Verif Require Import Base DmStack.

(** nothing held *)
Definition idle : kst := {| k_loops := []; k_fds := []; k_dms := []; k_mnts := []; k_dir := false |}.

(** calls that give something back (closing a descriptor always works) *)
Definition gives_back (a : kact) : bool :=
  match a with KRmdir | KLoopClear _ | KDmControl ForRemoval | KDmRemove _ _ | KUmount => true | _ => false end.
(** the kernel does not refuse them without a reason of its own *)
Definition releases_work (oracle : hist -> kact -> ans) : Prop :=
  forall h a, gives_back a = true -> oracle h a = Good 0.

(** the table lines, as documented for the kernel's targets *)
Definition verity_line (lower : string) (blocks : N) (digest salt : string) : string :=
  join " " ["1"; lower; lower; "4096"; "4096"; print_num 10 blocks; print_num 10 blocks; "sha256"; digest; salt].
Definition crypt_line (key lower : string) : string :=
  join " " ["aes-cbc-plain64"; key; "0"; lower; "0"; "1"; "sector_size:4096"].

Definition loop_name (n : N) : string := ("/dev/loop" ++ print_num 10 n)%string.
Definition dm_name (m : N) : string := ("/dev/dm-" ++ print_num 10 m)%string.

(** the layers of a mounted bundle; [p]: marked for removal on last use *)
Definition loop_layer (n : N) (size : Z) : N * lcfg := (n, {| l_limit := Some size; l_ro := true; l_auto := true |}).
Definition verity_layer (b : bundle) (n m blocks : N) (p : bool) : dmst :=
  {| d_kind := Verity; d_minor := m;
     d_table := Some {| t_sectors := 8 * blocks; t_params := verity_line (loop_name n) blocks (b_hash b) (b_salt b);
                        t_lower := DLoop n; t_ro := true |};
     d_active := true; d_pending := p |}.
Definition crypt_layer (b : bundle) (m m' blocks : N) (p : bool) : dmst :=
  {| d_kind := Crypt; d_minor := m';
     d_table := Some {| t_sectors := 8 * blocks; t_params := crypt_line (b_key b) (dm_name m);
                        t_lower := DDm m; t_ro := true |};
     d_active := true; d_pending := p |}.
Definition mounted_on (x : dev) : mnt := {| m_dev := x; m_flags := ["MS_NODEV"; "MS_NOSUID"; "MS_RDONLY"] |}.

(** what a mounted bundle holds; [p], [p']: whether the verity and crypt devices are marked for removal *)
Definition holds (b : bundle) (p p' : bool) (s : kst) : Prop :=
  exists n,
  match b_format b with
  | Plain => s = {| k_loops := [loop_layer n (b_size b)]; k_fds := []; k_dms := []; k_mnts := [mounted_on (DLoop n)]; k_dir := true |}
  | FVerity => exists m blocks, data_size b = (4096 * blocks)%N /\ (0 < blocks)%N /\
      s = {| k_loops := [loop_layer n (b_size b)]; k_fds := []; k_dms := [verity_layer b n m blocks p];
             k_mnts := [mounted_on (DDm m)]; k_dir := true |}
  | FCrypt => exists m m' blocks, data_size b = (4096 * blocks)%N /\ (0 < blocks)%N /\ m <> m' /\
      s = {| k_loops := [loop_layer n (b_size b)]; k_fds := [];
             k_dms := [crypt_layer b m m' blocks p'; verity_layer b n m blocks p];
             k_mnts := [mounted_on (DDm m')]; k_dir := true |}
  end.

(** [mount_bundle] and [umount_bundle] of a process that holds nothing *)
Definition start : world := {| w_k := idle; w_tr := [] |}.
Definition mounts (o : hist -> kact -> ans) (b : bundle) (pre : bool) : outcome := fst (mount_bundle o b pre start).
Definition after_mount (o : hist -> kact -> ans) (b : bundle) (pre : bool) : world := snd (mount_bundle o b pre start).

(** how often something was called *)
Definition count (p : kact -> bool) (t : hist) : nat := List.length (List.filter (fun x => p (fst x)) t).
Definition is_free (a : kact) : bool := match a with KLoopFree => true | _ => false end.
Definition is_mount (a : kact) : bool := match a with KMount _ _ => true | _ => false end.

(** [x] was called, worked, and that was before [y] *)
Definition did (t : hist) (a : kact) : Prop := exists v, In (a, Good v) t.
(** the checks a layer passed: its first block could be read and the kernel reported a sound status *)
Definition layer_checked (t : hist) (k : dk) (m : N) : Prop :=
  In (KDmCreate k, Good m) t /\ did t (KDmRead m) /\
  exists s, In (KDmStatus k, Said s) t /\
    match k with Verity => s = "V" \/ exists r, s = ("V " ++ r)%string | Crypt => s = "" end.

(** what has happened before something is mounted: the loop device was limited to the signed part of the file
    and made read-only; every layer was checked; if asked for, the whole device was read *)
Definition ready (b : bundle) (pre : bool) (t : hist) (x : dev) : Prop :=
  exists n, did t (KLoopStatus n (b_size b) true true) /\
  match b_format b with
  | Plain => x = DLoop n
  | FVerity => exists m, x = DDm m /\ layer_checked t Verity m /\ (pre = true -> did t (KReadAll x))
  | FCrypt => exists m m', x = DDm m' /\ layer_checked t Verity m /\ layer_checked t Crypt m' /\
                (pre = true -> did t (KReadAll x))
  end.
