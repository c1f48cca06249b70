(** Vocabulary of C07. *)
From Verif Require Import Base Slot KeyFile Manifest StatusFile.

(** GLib: a time stamp written and read again is the same up to fractions of a second, and
    is never written as an empty string *)
Definition iso_law {T} (i : iso T) (seconds : T -> T) : Prop :=
  forall t, iso_parse i (iso_fmt i t) = Some (seconds t) /\ iso_fmt i t <> "".

(** values a status record can have *)
Record rstat_ok {T} (r : rstat T) : Prop := {
  ro_strings : forall s, In (Some s) [rs_compatible r; rs_version r; rs_description r; rs_build r; rs_hash r;
                                      rs_status r; rs_digest r] -> s <> "";
  ro_size : (- 2 ^ 63 <= rs_size r < 2 ^ 63)%Z;
  ro_icount : (rs_icount r < 2 ^ 32)%N;
  ro_acount : (rs_acount r < 2 ^ 32)%N
}.

(** what survives: everything except the transaction id, fractions of seconds, and the size
    of an image without digest *)
Definition persisted {T} (seconds : T -> T) (r : rstat T) : rstat T :=
  mkRstat (rs_compatible r) (rs_version r) (rs_description r) (rs_build r) (rs_hash r) (rs_status r)
    (rs_digest r) (match rs_digest r with Some _ => rs_size r | None => 0%Z end) None
    (option_map seconds (rs_installed r)) (rs_icount r)
    (option_map seconds (rs_activated r)) (rs_acount r).
