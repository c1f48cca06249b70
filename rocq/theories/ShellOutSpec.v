(** Vocabulary for C64: what sh makes of a text that consists of assignments, and what the variables should be.
    The evaluator is written from the description of the shell (POSIX XCU 2.2, 2.3, 2.9.1): a name, an equals
    sign, a value with quotes and backslashes, a newline.  Whatever else the shell might find there (a command,
    an expansion, a second word) gives [None]. *)
From Verif Require Import Base Image Manifest StatusFile EnvKey ShellOut.

Definition name_start (c : ascii) : bool := is_lower c || is_upper c || Ascii.eqb c "_".
Definition name_char (c : ascii) : bool := name_start c || is_num c.
(** characters that need no quotes in a value *)
Definition plain_char (c : ascii) : bool := is_alnum c || existsb (Ascii.eqb c) ["-"; "."; "/"; "_"; "+"; ","; "@"; "%"]%char.
Definition newline : ascii := "010"%char.

Inductive where_ := AtLine | InName (n : string) | InValue (n v : string) | InQuotes (n v : string) | AfterBackslash (n v : string).
Definition snoc (s : string) (c : ascii) : string := (s ++ String c EmptyString)%string.
Fixpoint eval_from (w : where_) (s : string) : option (list (string * string)) :=
  match s with
  | EmptyString => match w with AtLine => Some [] | InValue n v => Some [(n, v)] | _ => None end
  | String c r =>
      match w with
      | AtLine => if Ascii.eqb c newline then eval_from AtLine r
                  else if name_start c then eval_from (InName (String c EmptyString)) r else None
      | InName n => if Ascii.eqb c "=" then eval_from (InValue n EmptyString) r
                    else if name_char c then eval_from (InName (snoc n c)) r else None
      | InValue n v => if Ascii.eqb c newline then option_map (cons (n, v)) (eval_from AtLine r)
                       else if Ascii.eqb c "'" then eval_from (InQuotes n v) r
                       else if Ascii.eqb c "\" then eval_from (AfterBackslash n v) r
                       else if plain_char c then eval_from (InValue n (snoc v c)) r else None
      | InQuotes n v => if Ascii.eqb c "'" then eval_from (InValue n v) r else eval_from (InQuotes n (snoc v c)) r
      | AfterBackslash n v => if Ascii.eqb c newline then eval_from (InValue n v) r else eval_from (InValue n (snoc v c)) r
      end
  end.
(** the assignments made by "eval $text" *)
Definition sh_eval (text : string) : option (list (string * string)) := eval_from AtLine text.
(** the value of a variable afterwards: the last assignment counts *)
Fixpoint value_of (n : string) (l : list (string * string)) : option string :=
  match l with
  | [] => None
  | (k, v) :: r => match value_of n r with Some x => Some x | None => if String.eqb k n then Some v else None end
  end.
(** [text] evaluates, and the variable [n] is then [v] (None: not set) *)
Definition sets (text n : string) (v : option string) : Prop := exists l, sh_eval text = Some l /\ value_of n l = v.
(** numerals and lists in values *)
Definition num (k : nat) : string := print_num 10 (N.of_nat k).
Definition or_empty (s : option string) : string := match s with Some x => x | None => "" end.
Definition words (l : list string) : string := join " " l.

(** a name made of capitals, digits and underscores, starting with RAUC_ *)
Definition rauc_name (n : string) : bool := has_prefix "RAUC_" n && all_chars (fun c => is_upper c || is_num c || Ascii.eqb c "_") n.

(** ** rauc status *)
(** values the service or the client does not have *)
Definition or_null (s : option string) : string := match s with Some x => x | None => "(null)" end.
Definition state_text (s : sstate) : string := match s with ST_ACTIVE => "active" | ST_INACTIVE => "inactive" | ST_BOOTED => "booted" | ST_UNKNOWN => "unknown" end.
Definition boot_text (b : bstate) : string := match b with B_GOOD => "good" | B_BAD => "bad" | B_UNKNOWN => "unknown" end.
Definition counted (k : nat) : string := words (map num (seq 1 k)).

(** the variables of the slot with number [k] show [s]; [st]: the status file's content is shown too *)
Definition slot_vars {T} (s : vslot T) : list (string * option string) :=
  [("RAUC_SLOT_STATE_", Some (state_text (v_state s)));
   ("RAUC_SLOT_CLASS_", Some (v_class s));
   ("RAUC_SLOT_DEVICE_", Some (or_null (v_device s)));
   ("RAUC_SLOT_TYPE_", Some (or_null (v_type s)));
   ("RAUC_SLOT_BOOTNAME_", Some (or_empty (v_bootname s)));
   ("RAUC_SLOT_PARENT_", Some (or_empty (v_parent s)));
   ("RAUC_SLOT_MOUNTPOINT_", Some (or_empty (v_mount s)));
   ("RAUC_SLOT_BOOT_STATUS_", Some (match v_bootname s with Some _ => boot_text (v_boot s) | None => "" end))].
Definition detail_names : list string :=
  ["RAUC_SLOT_STATUS_BUNDLE_COMPATIBLE_"; "RAUC_SLOT_STATUS_BUNDLE_VERSION_"; "RAUC_SLOT_STATUS_BUNDLE_DESCRIPTION_";
   "RAUC_SLOT_STATUS_BUNDLE_BUILD_"; "RAUC_SLOT_STATUS_BUNDLE_HASH_"; "RAUC_SLOT_STATUS_CHECKSUM_SHA256_";
   "RAUC_SLOT_STATUS_CHECKSUM_SIZE_"; "RAUC_SLOT_STATUS_INSTALLED_TIMESTAMP_"; "RAUC_SLOT_STATUS_INSTALLED_COUNT_";
   "RAUC_SLOT_STATUS_ACTIVATED_TIMESTAMP_"; "RAUC_SLOT_STATUS_ACTIVATED_COUNT_"; "RAUC_SLOT_STATUS_STATUS_"].
Definition detail_values {T} (i : iso T) (r : rstat T) : list string :=
  [or_empty (rs_compatible r); or_empty (rs_version r); or_empty (rs_description r); or_empty (rs_build r); or_empty (rs_hash r);
   or_empty (rs_digest r); (if (rs_size r <? 0)%Z then "-" else "") ++ print_num 10 (Z.to_N (Z.abs (rs_size r)));
   or_empty (option_map (iso_fmt i) (rs_installed r)); print_num 10 (rs_icount r);
   or_empty (option_map (iso_fmt i) (rs_activated r)); print_num 10 (rs_acount r); or_empty (rs_status r)]%string.
Definition shown (text k : string) (vars : list (string * option string)) : Prop := Forall (fun pv => sets text (fst pv ++ k) (snd pv)) vars.

Definition inst_shown (text : string) (par : option string) (k : string) (x : ainst) : Prop :=
  shown text k [("RAUC_REPO_ARTIFACT_INSTANCE_CHECKSUM_", Some (ai_checksum x));
                ("RAUC_REPO_ARTIFACT_INSTANCE_ACTIVE_", match par with Some _ => None | None => Some (match ai_refs x with [] => "0" | _ => "1" end) end);
                ("RAUC_REPO_ARTIFACT_INSTANCE_REFERENCES_", match par with Some _ => Some (words (ai_refs x)) | None => None end)].
Definition art_shown (text : string) (par : option string) (k : string) (x : aart) : Prop :=
  shown text k [("RAUC_REPO_ARTIFACT_NAME_", Some (aa_name x)); ("RAUC_REPO_ARTIFACT_INSTANCES_", Some (counted (List.length (aa_insts x))))] /\
  (forall n y, nth_error (aa_insts x) n = Some y -> inst_shown text par (k ++ "_" ++ num (S n)) y).
Definition repo_shown (text : string) (k : string) (x : arepo) : Prop :=
  shown text k [("RAUC_REPO_NAME_", Some (ar_name x)); ("RAUC_REPO_PATH_", ar_path x); ("RAUC_REPO_TYPE_", ar_type x);
                ("RAUC_REPO_PARENT_CLASS_", ar_parent x); ("RAUC_REPO_ARTIFACTS_", Some (counted (List.length (ar_arts x))))] /\
  (forall n y, nth_error (ar_arts x) n = Some y -> art_shown text (ar_parent x) (k ++ "_" ++ num (S n)) y).

(** ** what the client is to show of a slot of the service *)
Definition received {T} (r : rstat T) : rstat T :=
  mkRstat (rs_compatible r) (rs_version r) (rs_description r) (rs_build r) (rs_hash r) (rs_status r)
    (rs_digest r) (match rs_digest r with Some _ => rs_size r | None => 0%Z end) (rs_txn r)
    (rs_installed r) (match rs_installed r with Some _ => rs_icount r | None => 0%N end)
    (rs_activated r) (match rs_activated r with Some _ => rs_acount r | None => 0%N end).
Definition as_seen {T} (det : bool) (sr : vslot T * rstat T) : vslot T :=
  let s := fst sr in
  mkV (v_name s) (v_class s) (v_device s) (v_type s) (v_bootname s) (v_state s) (v_parent s)
    (match v_mount s with Some x => Some x | None => v_ext_mount s end) None
    (match v_bootname s with Some _ => v_boot s | None => B_UNKNOWN end) (if det then Some (received (snd sr)) else None).
