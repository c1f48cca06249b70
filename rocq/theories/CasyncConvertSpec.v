(** Vocabulary for C63: conversion to a casync bundle. *)
From Verif Require Import Base KeyFile Image Manifest BundleCreate BundleCreateSpec CasyncConvert ShellWords.

(** archives: ".tar" somewhere in the name, or ".catar" at its end *)
Definition archive_file (f : string) : Prop := (exists a b, f = a ++ ".tar" ++ b)%string \/ (exists a, f = a ++ ".catar")%string.

(** [index_for f x]: the index that replaces [f] *)
Definition index_for (f x : string) : Prop :=
  (archive_file f /\ x = (f ++ ".caidx")%string) \/ (~ archive_file f /\ x = (f ++ ".caibx")%string).

(** [replaced ig i f x]: image [i] names file [f], is not to be ignored, and is to be replaced by [x] *)
Definition replaced (ig : list string) (i : image) (f x : string) : Prop :=
  im_filename i = Some f /\ ~ In (im_class i) ig /\ index_for f x.

(** how an image of the input appears in the output's manifest: only the file name may change *)
Definition reindexed (ig : list string) (i i' : image) : Prop :=
  im_class i' = im_class i /\ im_artifact i' = im_artifact i /\ im_variant i' = im_variant i /\ im_digest i' = im_digest i
  /\ im_size i' = im_size i /\ im_type i' = im_type i /\ im_pre i' = im_pre i /\ im_install i' = im_install i /\ im_post i' = im_post i
  /\ im_adaptive i' = im_adaptive i /\ im_convert i' = im_convert i /\ im_converted i' = im_converted i
  /\ match im_filename i with
     | None => im_filename i' = None
     | Some f => (In (im_class i) ig /\ im_filename i' = Some f)
                 \/ (~ In (im_class i) ig /\ exists x, index_for f x /\ im_filename i' = Some x)
     end.

(** the finished bundle around the squashfs *)
Definition sealed (f : bformat) (d : dir) (c : nat -> cont) (m : manifest) (o : outc) : Prop :=
  match f with
  | F_PLAIN => o = OSigned (OSquash d c false) m
  | _ => exists h s n, mf_verity_hash m = Some h /\ mf_verity_salt m = Some s /\ mf_verity_size m = n
                       /\ o = OSigned (OVerity (OSquash d c false) h s n) m
  end.

(** some call to remove this path was refused *)
Definition refused (e : env) (s : st) (p : string) : Prop :=
  exists l1 l2, s_log s = l1 ++ KRemove p :: l2 /\ a_ok (e_ans e (List.length l2)) = false.

(** a missing size is taken as 0 (only possible with an install hook) *)
Definition settled (i i' : image) : Prop :=
  i' = i \/ ((im_size i < 0)%Z /\ im_install i = true
             /\ im_size i' = 0%Z /\ im_class i' = im_class i /\ im_artifact i' = im_artifact i /\ im_variant i' = im_variant i
             /\ im_digest i' = im_digest i /\ im_filename i' = im_filename i /\ im_type i' = im_type i /\ im_pre i' = im_pre i
             /\ im_install i' = im_install i /\ im_post i' = im_post i /\ im_adaptive i' = im_adaptive i
             /\ im_convert i' = im_convert i /\ im_converted i' = im_converted i).

(** the chunk store beside the output *)
Definition store_for (out p : string) : Prop :=
  (exists a, out = a ++ ".raucb" /\ p = a ++ ".castr")%string \/ ((forall a, out <> a ++ ".raucb")%string /\ p = (out ++ ".castr")%string).

(** extra arguments given by the user *)
Definition extra_args (o : copt) (l : list string) : Prop := o_args o = Some (Some l) \/ (o_args o = None /\ l = []).

(** how an index file is made from a file: blobs (and everything for desync) directly, archives by
    unpacking them into a new directory first *)
Definition tool_call (e : env) (o : copt) (f src idx store : string) (args argv : list string) : Prop :=
  if o_desync o then argv = ["desync"; "make"; "--store"; store; idx; src] ++ args
  else (~ archive_file f /\ argv = ["casync"; "make"; idx; src; "--store"; store] ++ args)
       \/ (archive_file f /\ exists tmp cmd,
             has_prefix (o_tmpdir o ++ "/arch-") tmp = true
             /\ argv = (if e_pseudo e then [] else ["fakeroot"]) ++ ["sh"; "-c"; cmd]
             /\ sh_tokens cmd
                = Some ([TWord "tar"; TWord "xf"; TWord src; TWord "-C"; TWord tmp;
                         TWord "--numeric-owner"; TAnd;
                         TWord "casync"; TWord "make"; TWord "--with=unix"; TWord idx; TWord tmp;
                         TWord "--store"; TWord store] ++ map TWord args)).

(** the manifest would be accepted in the signature (with fresh verity data unless plain) *)
Definition signable (e : env) (m : manifest) : Prop :=
  if bformat_eqb (mf_format m) F_PLAIN then exists r, check_internal (e_rauc e) m = Ok r
  else forall h s n, hex32 (Some h) = true -> hex32 (Some s) = true -> n <> 0%N -> (n mod 4096 = 0)%N ->
       exists r, check_external (e_rauc e) (with_verity m h s n) = Ok r.
