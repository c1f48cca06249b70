(** Vocabulary for C49. *)
From Verif Require Import Base Nbd NbdConfig.

(** the bytes of a response *)
Definition g_body (c : cfgres) : string := String.concat "" (g_chunks c).

(** a header "Content-Range: <unit> 0-3/<size>", the name in any case; <size> is read as decimal number *)
Definition size_header (h : string) (n : N) : Prop :=
  exists name unit num, strdown name = "content-range"%string /\ no_char " " unit = true /\ chomp h = (name ++ ": " ++ unit ++ " 0-3/" ++ num)%string /\
    parse_size num = Some n.

(** a header with the name Content-Range *)
Definition range_header (h : string) : Prop :=
  exists name v, strdown name = "content-range"%string /\ chomp h = (name ++ ": " ++ v)%string.

(** the answer the configuration needs: partial content, the four bytes asked for *)
Definition usable (c : cfgres) : Prop :=
  g_ok c = true /\ g_http c = 206%N /\ String.length (g_body c) = 4.
