(** Model of the optional check of the whole bundle before mounting: src/bundle.c:2866-2902
    read_complete_dm_device, over a dm-verity device.

    The device is its list of 4096-byte blocks, [true] for a block whose hash is correct.  Counts are in
    blocks, so a chunk of 65536 bytes is 16 blocks.

    The kernel is a parameter of the loop: which answer it gives to a pread of a chunk.  Two kernels are
    defined; what POSIX promises is only that an answer is the end of file, an error, or a positive count of
    valid bytes, possibly smaller than requested. *)
From Verif Require Import Base.

Definition device := list bool.
(** pread's result: r < 0, r = 0, r > 0 (in blocks) *)
Inductive rd := RErr | REof | RBlocks (n : nat).

Definition chunk_blocks : nat := 16. (* bundle.c:2868 chunk_size = 65536 *)

(** the blocks a pread (fd, buf, chunk_size, chunk*chunk_size) asks for *)
Definition requested (d : device) (chunk : nat) : list bool := firstn chunk_blocks (skipn (chunk_blocks * chunk) d).

(** leading blocks that verify *)
Fixpoint good_run (l : list bool) : nat := match l with true :: r => S (good_run r) | _ => 0 end.

(** buffered reads of a block device: data up to the first page that cannot be read; an error only when
    that is the first one (mm/filemap.c: the error is returned only if nothing was copied) *)
Definition page_cache (d : device) (chunk : nat) : rd :=
  match requested d chunk with
  | [] => REof
  | l => match good_run l with 0 => RErr | S k => RBlocks (S k) end
  end.

(** a kernel that fails any read touching a block that does not verify *)
Definition whole_request (d : device) (chunk : nat) : rd :=
  match requested d chunk with
  | [] => REof
  | l => if forallb (fun b => b) l then RBlocks (List.length l) else RErr
  end.

(** bundle.c:2886-2899: the loop; [fuel] bounds the number of chunks (enough: C60_the_check_ends) *)
Fixpoint read_loop (kernel : device -> nat -> rd) (d : device) (fuel chunk : nat) : option bool :=
  match fuel with
  | 0 => None
  | S f => match kernel d chunk with
           | REof => Some true
           | RErr => Some false
           | RBlocks _ => read_loop kernel d f (S chunk)
           end
  end.
(** bundle.c:2866-2902 read_complete_dm_device (opening the device node is C61's matter) *)
Definition read_complete (kernel : device -> nat -> rd) (d : device) : option bool :=
  read_loop kernel d (S (List.length d)) 0.
