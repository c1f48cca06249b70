(** Model of src/hash_index.c and of the adaptive copy in src/update_handler.c.
    SHA-256 is the parameter [H]; the kernel's block I/O is the oracle of Disk.v. *)
From Verif Require Import Base Disk ExactIO BootRegion Emmc.

(** hash_index.h:21-24: chunk size; hash_index.c:12-13 *)
Definition csz : N := 4096.
Definition digest := list byte.
Definition max_chunks : N := 134217727.   (* MAX_CHUNK_COUNT 0x7ffffff *)

(** memcmp of two digests *)
Fixpoint memcmp (a b : digest) : comparison :=
  match a, b with
  | [], [] => Eq
  | [], _ => Lt
  | _, [] => Gt
  | x :: a', y :: b' => match (x ?= y)%N with Eq => memcmp a' b' | c => c end
  end.

(** where the data of an index is: the target device itself, or another device or file *)
Inductive src := STarget | SOther (d : disk) (size : N).
Definition with_src {A} (s : src) (dsz : N) (f : N -> io -> A * io) (st : io) : A * io :=
  match s with
  | STarget => f dsz st
  | SOther d size =>
      let '(r, st') := f size (mkIo (io_k st) d []) in (r, mkIo (io_k st') (io_disk st) (io_trace st))
  end.
Definition src_size (s : src) (dsz : N) : N := match s with STarget => dsz | SOther _ size => size end.

(** hash_index.h:26-36 RaucHashIndex.  [hi_from] = None: invalid_from = G_MAXUINT32 (chunk
    numbers are smaller). *)
Record hidx := mkHidx {
  hi_src : src; hi_count : nat; hi_hashes : list digest; hi_lookup : list nat;
  hi_below : nat; hi_from : option nat; hi_skip : bool }.

(** hash_index.c:111-127 lookup_compare_sort (as less-or-equal) *)
Definition lookup_le (hs : list digest) (i j : nat) : bool :=
  match memcmp (nth i hs []) (nth j hs []) with Lt => true | Gt => false | Eq => Nat.leb i j end.
(** qsort_r: the order is total, so every sorting algorithm gives the same table *)
Fixpoint insert_sorted (hs : list digest) (x : nat) (l : list nat) : list nat :=
  match l with
  | [] => [x]
  | y :: r => if lookup_le hs x y then x :: l else y :: insert_sorted hs x r
  end.
(** hash_index.c:135-153 build_lookup: over all hashes, also those beyond count *)
Definition build_lookup (hs : list digest) : list nat :=
  fold_right (insert_sorted hs) [] (seq 0 (List.length hs)).

(** hash_index.c:165-214 get_chunk_count (lseek works on block devices and files) *)
Definition get_chunk_count (size : N) : option nat :=
  if (size =? 0)%N then None
  else if (max_chunks <? size / csz)%N then None
  else if negb (size mod csz =? 0)%N then None
  else Some (N.to_nat (size / csz)).

(** hash_index.c:219-229 hash_index_prepare *)
Definition prepare_index (s : src) (count : nat) (hs : list digest) : hidx :=
  mkHidx s count hs (build_lookup hs) 0 None false.

(** hash_index.c:55-100 hash_file.  The first progress computation divides by count / 9:
    with progress reporting ([pg]) and less than nine chunks the process dies. *)
Fixpoint hash_loop (n : nat) (H : list byte -> digest) (fuel : nat) (o : oracle) (sz fdpos : N) (st : io) : out (list digest) * io :=
  match n with
  | O => (Done [], st)
  | S m =>
      match read_exact fuel o sz fdpos csz st with
      | (Done l, pos', st1) =>
          match hash_loop m H fuel o sz pos' st1 with
          | (Done r, st2) => (Done (H l :: r), st2)
          | e => e
          end
      | (Failed, _, st1) => (Failed, st1)
      | (Running, _, st1) => (Running, st1)
      end
  end.
Definition hash_file (pg : bool) (H : list byte -> digest) (fuel : nat) (o : oracle) (s : src) (dsz : N) (count : nat) (st : io)
  : out (res (list digest)) * io :=
  if pg && Nat.ltb count 9 then
    with_src s dsz (fun sz st => match hash_loop 1 H fuel o sz 0 st with
                                 | (Done _, st1) => (Done Abort, st1)
                                 | (Failed, st1) => (Failed, st1) | (Running, st1) => (Running, st1) end) st
  else
    with_src s dsz (fun sz st => match hash_loop count H fuel o sz 0 st with
                                 | (Done l, st1) => (Done (Ok l), st1)
                                 | (Failed, st1) => (Failed, st1) | (Running, st1) => (Running, st1) end) st.

(** the hashes in a mapped index file; an incomplete last one is ignored *)
Fixpoint split32 (n : nat) (l : list byte) : list digest :=
  match n with O => [] | S m => firstn 32 l :: split32 m (skipn 32 l) end.
Definition file_hashes (l : list byte) : list digest := split32 (Nat.div (List.length l) 32) l.

(** hash_index.c:231-287 r_hash_index_open; [file] = index file, if it exists *)
Definition index_open (pg : bool) (H : list byte -> digest) (fuel : nat) (o : oracle) (s : src) (dsz : N) (file : option (list byte)) (st : io)
  : out (res hidx) * io :=
  match get_chunk_count (src_size s dsz) with
  | None => (Failed, st)
  | Some count =>
      match file with
      | Some f =>
          if (2 ^ 32 - 1 <=? lenN f)%N then (Done Abort, st)                   (* g_assert *)
          else let hs := file_hashes f in
               (Done (Ok (prepare_index s (Nat.min count (List.length hs)) hs)), st)
      | None =>
          match hash_file pg H fuel o s dsz count st with
          | (Done (Ok hs), st1) => (Done (Ok (prepare_index s count hs)), st1)
          | (Done Err, st1) => (Done Err, st1)
          | (Done Abort, st1) => (Done Abort, st1)
          | (Failed, st1) => (Failed, st1)
          | (Running, st1) => (Running, st1)
          end
      end
  end.

(** hash_index.c:289-321 r_hash_index_reuse *)
Definition index_reuse (idx : hidx) (s : src) (dsz : N) : option hidx :=
  match get_chunk_count (src_size s dsz) with
  | None => None
  | Some c =>
      let count := Nat.min c (hi_count idx) in
      Some (prepare_index s count (firstn count (hi_hashes idx)))
  end.

(** hash_index.c:431-535 r_hash_index_get_chunk *)
Definition idx_cmp (idx : hidx) (h : digest) (i : nat) : comparison :=
  memcmp (nth (nth i (hi_lookup idx) 0) (hi_hashes idx) []) h.
(** :449-467 binary search *)
Fixpoint bsearch (fuel : nat) (cmp : nat -> comparison) (left right : nat) : option nat :=
  match fuel with
  | O => None
  | S f =>
      if Nat.leb left right then
        let middle := left + Nat.div (right - left) 2 in
        match cmp middle with
        | Eq => Some middle
        | Lt => bsearch f cmp (middle + 1) right
        | Gt => if Nat.ltb 0 middle then bsearch f cmp left (middle - 1) else None
        end
      else None
  end.
(** :480-487: the variable middle keeps its value when the loop ends at index 0 *)
Fixpoint first_back (cmp : nat -> comparison) (i middle : nat) : nat :=
  match i with
  | O => middle
  | S j => match cmp j with Eq => first_back cmp j middle | _ => i end
  end.
(** :490-513; [n] = count - i *)
Fixpoint scan_valid (n : nat) (idx : hidx) (h : digest) (i : nat) : option nat :=
  match n with
  | O => None
  | S m =>
      let curr := nth i (hi_lookup idx) 0 in
      match idx_cmp idx h i with
      | Eq =>
          if match hi_from idx with Some f => Nat.leb f curr | None => false end then None
          else if Nat.ltb curr (hi_below idx) then scan_valid m idx h (i + 1)
          else Some curr
      | _ => None
      end
  end.
Definition find_chunk (idx : hidx) (h : digest) : option nat :=
  match bsearch (S (hi_count idx)) (idx_cmp idx h) 0 (hi_count idx - 1) with
  | None => None
  | Some m =>
      let m := first_back (idx_cmp idx h) m m in
      scan_valid (hi_count idx - m) idx h m
  end.
Definition digest_eqb (a b : digest) : bool := match memcmp a b with Eq => true | _ => false end.
Definition get_chunk (H : list byte -> digest) (fuel : nat) (o : oracle) (dsz : N) (idx : hidx) (h : digest) (st : io) : out (list byte) * io :=
  if Nat.eqb (hi_count idx) 0 then (Failed, st)
  else
    match find_chunk idx h with
    | None => (Failed, st)
    | Some p =>
        match with_src (hi_src idx) dsz (fun sz => pread_exact fuel o sz (N.of_nat p * csz) csz) st with
        | (Done l, st1) =>
            if hi_skip idx then (Done l, st1)
            else if digest_eqb (H l) h then (Done l, st1) else (Failed, st1)
        | (Failed, st1) => (Failed, st1)
        | (Running, st1) => (Running, st1)
        end
    end.

(** ** update_handler.c:729-911 copy_block_hash_index_image_to_dev *)
(** :843-858: the sources are tried in order *)
Fixpoint try_sources (H : list byte -> digest) (fuel : nat) (o : oracle) (dsz : N) (l : list hidx) (h : digest) (st : io) : out (list byte) * io :=
  match l with
  | [] => (Failed, st)
  | idx :: r =>
      match get_chunk H fuel o dsz idx h st with
      | (Failed, st1) => try_sources H fuel o dsz r h st1
      | e => e
      end
  end.

Definition set_from (idx : hidx) (f : nat) : hidx :=
  mkHidx (hi_src idx) (hi_count idx) (hi_hashes idx) (hi_lookup idx) (hi_below idx) (Some f) (hi_skip idx).
Definition set_below (idx : hidx) (b : nat) : hidx :=
  mkHidx (hi_src idx) (hi_count idx) (hi_hashes idx) (hi_lookup idx) b (hi_from idx) (hi_skip idx).
Definition set_skip (idx : hidx) : hidx :=
  mkHidx (hi_src idx) (hi_count idx) (hi_hashes idx) (hi_lookup idx) (hi_below idx) (hi_from idx) true.

(** :830-893: [n] chunks from number [c] on; [zh] = R_HASH_INDEX_ZERO_CHUNK *)
Fixpoint adaptive_loop (n : nat) (H : list byte -> digest) (zh : digest) (fuel : nat) (o : oracle) (dsz : N)
  (written old : hidx) (rest : list hidx) (hs : list digest) (c : nat) (st : io) : out unit * io :=
  match n with
  | O => (Done tt, st)
  | S m =>
      let h := nth c hs [] in
      match (if digest_eqb h zh then (Done (repeat 0%N (N.to_nat csz)), st)
             else try_sources H fuel o dsz (written :: old :: rest) h st) with
      | (Done data, st1) =>
          match pwrite_lazy fuel o dsz (N.of_nat c * csz) data st1 with
          | (Done _, st2) => adaptive_loop m H zh fuel o dsz (set_from written (c + 1)) (set_below old c) rest hs (c + 1) st2
          | e => e
          end
      | (Failed, st1) => (Failed, st1)
      | (Running, st1) => (Running, st1)
      end
  end.

(** a file as a device content *)
Definition file_disk (l : list byte) : disk := fun p => nth (N.to_nat p) l 0%N.

(** seed slot: content, size, index file *)
Record seed := mkSeed { sd_disk : disk; sd_size : N; sd_file : option (list byte) }.

(** the whole function: [size] = image size in the manifest, [limit] = size-limit of the slot,
    [tfile] = old index of the target, [img]/[ifile] = image file and its index in the bundle *)
Definition adaptive_copy (pg : bool) (H : list byte -> digest) (zh : digest) (fuel : nat) (o : oracle) (dsz limit size : N)
  (tfile : option (list byte)) (sd : option seed) (img : list byte) (ifile : option (list byte)) (st : io) : out (res unit) * io :=
  let '(ok, st0) := sys_ok o st in                                             (* open target *)
  if negb ok then (Failed, st0) else
  match index_open pg H fuel o STarget dsz tfile st0 with
  | (Done (Ok old), st1) =>
      if negb (check_image_size dsz limit size) then (Failed, st1) else
      let '(ok, st2) := match sd with Some _ => sys_ok o st1 | None => (true, st1) end in
      if negb ok then (Failed, st2) else
      match (match sd with
             | None => (Done (Ok []), st2)
             | Some s =>
                 match index_open pg H fuel o (SOther (sd_disk s) (sd_size s)) dsz (sd_file s) st2 with
                 | (Done (Ok i), st3) => (Done (Ok [i]), st3)
                 | (Done Err, st3) => (Done Err, st3)
                 | (Done Abort, st3) => (Done Abort, st3)
                 | (Failed, st3) => (Failed, st3)
                 | (Running, st3) => (Running, st3)
                 end
             end) with
      | (Done (Ok seeds), st3) =>
          let '(ok, st4) := sys_ok o st3 in                                    (* open image *)
          if negb ok then (Failed, st4) else
          match index_open pg H fuel o (SOther (file_disk img) (lenN img)) dsz ifile st4 with
          | (Done (Ok source0), st5) =>
              let source := set_skip source0 in
              match index_reuse source STarget dsz with
              | None => (Failed, st5)
              | Some w =>
                  let written := set_skip (set_from w 0) in
                  match adaptive_loop (hi_count source) H zh fuel o dsz written old (seeds ++ [source]) (hi_hashes source) 0 st5 with
                  | (Done _, st6) =>
                      let '(ok, st7) := sys_fsync o st6 in
                      (* :901-906: a failure to store the new index is ignored *)
                      ((if ok then Done (Ok tt) else Failed), st7)
                  | (Failed, st6) => (Failed, st6)
                  | (Running, st6) => (Running, st6)
                  end
              end
          | (Done Err, st5) => (Done Err, st5)
          | (Done Abort, st5) => (Done Abort, st5)
          | (Failed, st5) => (Failed, st5)
          | (Running, st5) => (Running, st5)
          end
      | (Done Err, st3) => (Done Err, st3)
      | (Done Abort, st3) => (Done Abort, st3)
      | (Failed, st3) => (Failed, st3)
      | (Running, st3) => (Running, st3)
      end
  | (Done Err, st1) => (Done Err, st1)
  | (Done Abort, st1) => (Done Abort, st1)
  | (Failed, st1) => (Failed, st1)
  | (Running, st1) => (Running, st1)
  end.

(** update_handler.c:913-1034 copy_adaptive_image_to_dev, write_image_to_dev (without casync).
    [methods] = adaptive methods of the image, [datadir] = a data directory is configured *)
Definition write_image_to_dev (pg : bool) (H : list byte -> digest) (zh : digest) (fuel : nat) (o : oracle) (dsz ss limit size : N)
  (methods : list string) (datadir : bool) (tfile : option (list byte)) (sd : option seed) (img : list byte) (ifile : option (list byte)) (st : io)
  : out (res unit) * io :=
  let raw (st : io) :=
    match copy_to_dev fuel o dsz ss limit img size st with
    | (Done _, st1) => (Done (Ok tt), st1)
    | (Failed, st1) => (Failed, st1)
    | (Running, st1) => (Running, st1)
    end in
  if datadir && existsb (String.eqb "block-hash-index") methods then
    match adaptive_copy pg H zh fuel o dsz limit size tfile sd img ifile st with
    | (Failed, st1) => raw st1
    | (Done Err, st1) => raw st1
    | e => e
    end
  else raw st.
