(** Model of src/verity_hash.c.  SHA-256 is the parameter [H].  OpenSSL errors are not
    modelled.  stdio buffering is not modelled: a write error shows up at fwrite instead of the
    next fseeko on the same stream (every write is followed by one before the root hash is
    returned). *)
From Verif Require Import Base Disk HashIndex.

(** verity_hash.c:38-41 *)
Definition vbs : N := 4096.
Definition vbsn : nat := N.to_nat vbs.
Definition dsize : nat := 32.
Definition per_block : nat := 128.     (* 1 << get_bits_down(4096 / 32) *)
Definition pb_bits : N := 7.           (* get_bits_down(4096 / 32) *)
Definition max_levels : nat := 63.
Definition u64 : N := 2 ^ 64.

(** the file, and the outcome of the k-th stdio call: success, or failure (after [n] bytes) *)
Record vfile := mkVf { vf_k : nat; vf_size : N; vf_disk : disk }.
Definition voracle := nat -> option N.
Inductive vres := V0 | VEio | VEinval | VEperm.

(** fopen, fseeko *)
Definition vcall (o : voracle) (f : vfile) : bool * vfile :=
  (match o (vf_k f) with None => true | Some _ => false end, mkVf (S (vf_k f)) (vf_size f) (vf_disk f)).
Definition fread (o : voracle) (pos : N) (n : nat) (f : vfile) : option (list byte) * vfile :=
  let f' := mkVf (S (vf_k f)) (vf_size f) (vf_disk f) in
  match o (vf_k f) with
  | Some _ => (None, f')
  | None => if (pos + N.of_nat n <=? vf_size f)%N then (Some (dread (vf_disk f) pos n), f') else (None, f')
  end.
Definition fwrite (o : voracle) (pos : N) (l : list byte) (f : vfile) : bool * vfile :=
  match o (vf_k f) with
  | Some m => (false, mkVf (S (vf_k f)) (vf_size f) (dwrite (vf_disk f) pos (firstn (N.to_nat m) l)))
  | None => (true, mkVf (S (vf_k f)) (N.max (vf_size f) (pos + lenN l)) (dwrite (vf_disk f) pos l))
  end.

(** verity_hash.c:58-75 verify_zero *)
Definition verify_zero (o : voracle) (pos : N) (n : nat) (f : vfile) : vres * vfile :=
  match fread o pos n f with
  | (None, f1) => (VEio, f1)
  | (Some l, f1) => if forallb (N.eqb 0) l then (V0, f1) else (VEperm, f1)
  end.

(** verity_hash.c:122-128 uint64_mult_overflow *)
Definition mult_overflow (b size : N) : bool := negb (((b * size) mod u64) / size =? b)%N.

(** verity_hash.c:145-148: number of levels; 64 bit arithmetic, at most 10 rounds *)
Fixpoint count_levels (fuel : nat) (n : N) (l : N) : N :=
  match fuel with
  | O => l
  | S f => if (pb_bits * l <? 64)%N && negb (N.shiftr ((n + u64 - 1) mod u64) (pb_bits * l) =? 0)%N then count_levels f n (l + 1) else l
  end.
(** verity_hash.c:153-168: levels [i]-1 .. 0 are placed from [pos] on; result: (block, size) of
    the levels, lowest one first, and the end *)
Fixpoint place_levels (i : nat) (n pos : N) : option (list (N * N) * N) :=
  match i with
  | O => Some ([], pos)
  | S j =>
      let shift := (N.of_nat i * pb_bits)%N in
      if (63 <? shift)%N then None else
      let s := N.shiftr ((n + N.shiftl 1 shift - 1) mod u64) shift in
      if ((pos + s) mod u64 <? pos)%N then None
      else match place_levels j n ((pos + s) mod u64) with
           | Some (l, e) => Some (l ++ [(pos, s)], e)
           | None => None
           end
  end.
(** verity_hash.c:130-171 hash_levels *)
Definition hash_levels (n : N) : option (list (N * N) * N) :=
  let levels := N.to_nat (count_levels 64 n 0) in
  if Nat.ltb max_levels levels then None else place_levels levels n n.

(** the variables of the loops of create_or_verify *)
Record vloop := mkVl { l_blocks : nat; l_rd : N; l_wr : N; l_left : nat; l_calc : digest }.

(** verity_hash.c:212-260: the inner loop; the spare area after each digest is empty *)
Fixpoint hash_inner (i : nat) (H : list byte -> digest) (salt : list byte) (o : voracle) (wr verify : bool) (s : vloop) (f : vfile) : vres * vloop * vfile :=
  match i with
  | O => (V0, s, f)
  | S i' =>
      match l_blocks s with
      | O => (V0, s, f)
      | S b =>
          match fread o (l_rd s) vbsn f with
          | (None, f1) => (VEio, mkVl b (l_rd s) (l_wr s) (l_left s) (l_calc s), f1)
          | (Some data, f1) =>
              let d := H (salt ++ data) in
              let s1 := mkVl b (l_rd s + vbs)%N (l_wr s) (l_left s) d in
              if negb wr then (V0, s1, f1)
              else
                let s2 := mkVl b (l_rd s + vbs)%N (l_wr s + N.of_nat dsize)%N (l_left s - dsize) d in
                if verify then
                  match fread o (l_wr s) dsize f1 with
                  | (None, f2) => (VEio, s1, f2)
                  | (Some rd, f2) => if digest_eqb rd d then hash_inner i' H salt o wr verify s2 f2 else (VEperm, s1, f2)
                  end
                else
                  match fwrite o (l_wr s) d f1 with
                  | (false, f2) => (VEio, s1, f2)
                  | (true, f2) => hash_inner i' H salt o wr verify s2 f2
                  end
          end
      end
  end.
(** verity_hash.c:210-273: the outer loop, [n] = blocks_to_write *)
Fixpoint hash_outer (n : nat) (H : list byte -> digest) (salt : list byte) (o : voracle) (wr verify : bool) (s : vloop) (f : vfile) : vres * vloop * vfile :=
  match n with
  | O => (V0, s, f)
  | S m =>
      match hash_inner per_block H salt o wr verify (mkVl (l_blocks s) (l_rd s) (l_wr s) vbsn (l_calc s)) f with
      | (V0, s1, f1) =>
          if wr && negb (Nat.eqb (l_left s1) 0) then
            let s2 := mkVl (l_blocks s1) (l_rd s1) (l_wr s1 + N.of_nat (l_left s1))%N (l_left s1) (l_calc s1) in
            if verify then
              match verify_zero o (l_wr s1) (l_left s1) f1 with
              | (V0, f2) => hash_outer m H salt o wr verify s2 f2
              | (e, f2) => (e, s1, f2)
              end
            else
              match fwrite o (l_wr s1) (repeat 0%N (l_left s1)) f1 with
              | (true, f2) => hash_outer m H salt o wr verify s2 f2
              | (false, f2) => (VEio, s1, f2)
              end
          else hash_outer m H salt o wr verify s1 f1
      | e => e
      end
  end.
(** verity_hash.c:173-276 create_or_verify; [wr] = None: no hash file *)
Definition create_or_verify (H : list byte -> digest) (salt : list byte) (o : voracle) (verify : bool) (data_block : N) (hash_block : option N) (blocks : N) (calc : digest) (f : vfile)
  : vres * digest * vfile :=
  let hb := match hash_block with Some h => h | None => 0%N end in
  let btw := ((blocks + N.of_nat per_block - 1) / N.of_nat per_block)%N in
  if mult_overflow data_block vbs || mult_overflow hb vbs then (VEinval, calc, f) else
  let '(ok, f1) := vcall o f in
  if negb ok then (VEio, calc, f1) else
  let '(ok, f2) := match hash_block with Some _ => vcall o f1 | None => (true, f1) end in
  if negb ok then (VEio, calc, f2) else
  let '(r, s, f3) := hash_outer (N.to_nat btw) H salt o (match hash_block with Some _ => true | None => false end) verify
    (mkVl (N.to_nat blocks) ((data_block * vbs) mod u64) ((hb * vbs) mod u64) 0 calc) f2 in
  (r, l_calc s, f3).

(** verity_hash.c:355-381: the levels one after the other; [prev] = position and number of the
    blocks of the level below *)
Fixpoint run_levels (lv : list (N * N)) (first : bool) (H : list byte -> digest) (salt : list byte) (o : voracle) (verify : bool) (prev : N * N) (calc : digest) (f : vfile)
  : vres * digest * vfile :=
  match lv with
  | [] => (V0, calc, f)
  | (b, s) :: r =>
      let '(ok, f1) := if first then (true, f) else vcall o f in                (* fopen hash_file_2 *)
      if negb ok then (VEio, calc, f1) else
      match create_or_verify H salt o verify (fst prev) (Some b) (snd prev) calc f1 with
      | (V0, calc', f2) => run_levels r false H salt o verify (b, s) calc' f2
      | e => e
      end
  end.

(** verity_hash.c:290-441 verity_create_or_verify_hash: result, combined_blocks, calculated root hash *)
Definition verity_run (H : list byte -> digest) (salt : list byte) (o : voracle) (verify : bool) (n : N) (f : vfile) : vres * N * digest * vfile :=
  let zero := repeat 0%N dsize in
  if mult_overflow n vbs then (VEinval, 0%N, zero, f) else
  match hash_levels n with
  | None => (VEinval, 0%N, zero, f)
  | Some (lv, e) =>
      if mult_overflow e vbs then (VEinval, 0%N, zero, f) else
      let '(ok, f1) := vcall o f in
      if negb ok then (VEio, e, zero, f1) else
      let '(ok, f2) := vcall o f1 in
      if negb ok then (VEio, e, zero, f2) else
      match run_levels lv true H salt o verify (0%N, n) zero f2 with
      | (V0, calc, f3) =>
          let '(r, calc', f4) :=
            match rev lv with
            | (b, _) :: _ => create_or_verify H salt o verify b None 1 calc f3
            | [] => create_or_verify H salt o verify 0 None n calc f3
            end in
          (r, e, calc', f4)
      | (r, calc, f3) => (r, e, calc, f3)
      end
  end.
(** verity_hash.c:443-461 r_verity_hash_create, r_verity_hash_verify *)
Definition verity_create (H : list byte -> digest) (salt : list byte) (o : voracle) (n : N) (f : vfile) : option (N * digest) * vfile :=
  match verity_run H salt o false n f with
  | (V0, e, root, f') => (Some (e, root), f')
  | (_, _, _, f') => (None, f')
  end.
Definition verity_verify (H : list byte -> digest) (salt : list byte) (o : voracle) (n : N) (root : digest) (f : vfile) : vres * vfile :=
  match verity_run H salt o true n f with
  | (V0, _, d, f') => if digest_eqb root d then (V0, f') else (VEperm, f')
  | (r, _, _, f') => (r, f')
  end.
