(** Model of the configuration of the streaming NBD server (src/nbd.c): the first HTTP request, which determines
    the size of the bundle, and how its result is reported.

    Simplifications: the socket never fails, the dictionary of the reply is transported as it is; the headers Date,
    Last-Modified and ETag, the effective URL and the extra request headers are left out. *)
From Verif Require Import Base KeyFile EnvKey Nbd.

(** g_ascii_strdown *)
Definition to_lower (c : ascii) : ascii := if is_upper c then ascii_of_N (N_of_ascii c + 32) else c.
Fixpoint strdown (s : string) : string :=
  match s with EmptyString => EmptyString | String c r => String (to_lower c) (strdown r) end.

(** g_strsplit (s, ": ", 2): Some of the two parts, None if there are fewer *)
Fixpoint split_header (s : string) : option (string * string) :=
  match s with
  | EmptyString => None
  | String c r =>
      if has_prefix ": " s then Some (""%string, sdrop 2 s)
      else match split_header r with
           | Some (a, b) => Some (String c a, b)
           | None => None
           end
  end.

(** g_ascii_strtoull followed by the check of errno and of the end pointer (nbd.c:416-421); nothing is converted
    for "", without an error *)
Definition parse_size (s : string) : option N :=
  match s with
  | EmptyString => Some 0%N
  | _ =>
      match strtoull_all s with
      | Some v =>
          let t := skip_space s in
          let t := match t with String c r => if Ascii.eqb c "-" || Ascii.eqb c "+" then r else t | EmptyString => t end in
          if (ullong_max <? horner 10 0 t)%N then None (* ERANGE *) else Some v
      | None => None
      end
  end.

(** nbd.c:399-423: the value of a Content-Range header; None: the callback refuses the header *)
Definition content_range (v : string) : option N :=
  match g_strsplit_max " " 2 v with
  | [_; e] =>
      match g_strsplit_max "/" 2 e with
      | [r; n] =>
          if negb (String.eqb r "0-3") || String.eqb n "*" then None else parse_size n
      | _ => None
      end
  | _ => None
  end.

(** nbd.c:380-448 header_cb: the new content size, or None if the callback refuses *)
Definition header_cb (size : N) (h : string) : option N :=
  match split_header (chomp h) with
  | Some (name, v) => if String.eqb (strdown name) "content-range" then content_range v else Some size
  | None => Some size
  end.

Fixpoint header_cbs (size : N) (hs : list string) : N * bool :=
  match hs with
  | [] => (size, true)
  | h :: hs' => match header_cb size h with Some size' => header_cbs size' hs' | None => (size, false) end
  end.

(** what the server sends and curl reports for one attempt: the headers of all responses (also of redirects), then
    the body *)
Record cfgres := mkCfgres {
  g_ok : bool;
  g_http : N;
  g_headers : list string;
  g_chunks : list string
}.

(** nbd.c:814-849: the reply dictionary of the server *)
Record cfgreply := mkCfgreply {
  cr_error : bool;             (* "error" *)
  cr_code : option N;          (* "error-http-code" *)
  cr_size : option N           (* "size" *)
}.

(** nbd.c:749-845 finish_configure for a transfer which is done *)
Definition finish_configure (http : N) (buf : string) (err : bool) (size : N) : cfgreply :=
  let sz := if (size =? 0)%N then None else Some size in
  if negb (http =? 206)%N then mkCfgreply true (Some http) sz
  else if negb (Nat.eqb (String.length buf) 4) then mkCfgreply true None sz
  else if err then mkCfgreply true None sz
  else mkCfgreply false None sz.

(** nbd.c:596-660 start_configure and the loop nbd.c:975-1018 for the configure request: attempts are made until
    one is final; [errors] and [size] are kept in the transfer. None: more results are needed. *)
Fixpoint configure_loop (errors : nat) (size : N) (rs : list cfgres) : option cfgreply :=
  match rs with
  | [] => None
  | c :: rs' =>
      let '(size', hok) := header_cbs size (g_headers c) in
      let '(buf, bok) := if hok then write_chunks 4 "" (g_chunks c) else (""%string, true) in
      if g_ok c && hok && bok then Some (finish_configure (g_http c) buf false size')
      else if (g_http c =? 404)%N then Some (finish_configure (g_http c) buf true size')
      else if Nat.leb 5 errors then Some (finish_configure (g_http c) buf true size')
      else configure_loop (S errors) size' rs'
  end.

Inductive cfgerr := NoContent | NotModified | Unauthorized | NotFound | ConfigFailed.
Inductive cfgout := CfgOk (size : N) | CfgErr (e : cfgerr).

(** nbd.c:1062-1170 nbd_configure: the result for the caller *)
Definition nbd_configure (rs : list cfgres) : option cfgout :=
  match configure_loop 0 0 rs with
  | None => None
  | Some r => Some (
      if cr_error r then
        let code := match cr_code r with Some n => n | None => 0%N end in
        CfgErr (if (code =? 204)%N then NoContent
                else if (code =? 304)%N then NotModified
                else if (code =? 401)%N then Unauthorized
                else if (code =? 404)%N then NotFound
                else ConfigFailed)
      else match cr_size r with
           | Some n => CfgOk n
           | None => CfgErr ConfigFailed
           end)
  end.
