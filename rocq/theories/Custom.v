(** Model of the custom boot loader backend src/bootloaders/custom.c and of the dispatch to it in
    src/bootchooser.c:47-234.  The program is any function of a state [W] (of the boot loader, the disk, ...) and
    its arguments. *)
From Verif Require Import Base Slot Bootname Mark.
From Verif Require Context.

(** what became of a program: not started, or its output and its exit code ([None]: killed by a signal) *)
Inductive outcome := NotStarted | Ran (output : string) (code : option nat).
Definition program (W : Type) : Type := W -> list string -> W * outcome.

(** custom.c:16-72 custom_backend_get: the output as a C string (utils.h r_bytes_unref_to_string: up to a NUL), then
    g_strstrip.  The environment and reading errors of the pipe are not modelled. *)
Definition custom_backend_get {W} (run : program W) (cmd : string) (bootname : option string) (w : W) : W * res string :=
  let '(w', o) := run w (match bootname with Some b => [cmd; b] | None => [cmd] end) in
  (w', match o with
       | NotStarted => Err
       | Ran out None => Err
       | Ran out (Some n) => if (n =? 0)%nat then Ok (Context.strstrip (Context.cstring out)) else Err
       end).

(** custom.c:85-118 custom_backend_set; g_return_val_if_fail (bootname) *)
Definition custom_backend_set {W} (run : program W) (cmd : string) (bootname arg : option string) (w : W) : W * bool :=
  match bootname with
  | None => (w, false)
  | Some b =>
      let '(w', o) := run w (match arg with Some a => [cmd; b; a] | None => [cmd; b] end) in
      (w', match o with Ran _ (Some n) => (n =? 0)%nat | _ => false end)
  end.

(** GDataInputStream read_line on the output: up to the first newline; NULL for no output *)
Definition first_line (out : string) : option string :=
  match out with
  | EmptyString => None
  | _ => match split_on "010" out with l :: _ => Some (Context.cstring l) | [] => None end
  end.
(** custom.c:121-182 r_custom_get_current_bootname *)
Definition custom_get_current {W} (run : program W) (w : W) : W * res string :=
  let '(w', o) := run w ["get-current"] in
  (w', match o with
       | NotStarted => Err
       | Ran out c => custom_get_current_bootname (first_line out) (match c with Some n => (n =? 0)%nat | None => false end)
       end).

(** custom.c:185-191 r_custom_set_state, :262-269 r_custom_set_primary *)
Definition custom_set_state {W} (run : program W) (s : slot) (good : bool) (w : W) : W * bool :=
  custom_backend_set run "set-state" (sl_bootname s) (Some (if good then "good" else "bad")) w.
Definition custom_set_primary {W} (run : program W) (s : slot) (w : W) : W * bool :=
  custom_backend_set run "set-primary" (sl_bootname s) None w.

(** custom.c:194-231 r_custom_get_primary; [slots] in the order of the hash table *)
Definition custom_get_primary {W} (run : program W) (slots : list slot) (w : W) : W * res slot :=
  let '(w', r) := custom_backend_get run "get-primary" None w in
  (w', match r with
       | Ok str => match find (fun s => match sl_bootname s with Some b => String.eqb str b | None => false end) slots with
                   | Some s => Ok s
                   | None => Err
                   end
       | _ => Err
       end).

(** custom.c:234-260 r_custom_get_state *)
Definition custom_get_state {W} (run : program W) (s : slot) (w : W) : W * res bool :=
  let '(w', r) := custom_backend_get run "get-state" (sl_bootname s) w in
  (w', match r with
       | Ok str => if String.eqb str "good" then Ok true else if String.eqb str "bad" then Ok false else Err
       | _ => Err
       end).

(** bootchooser.c:81-234 r_boot_set_state, r_boot_set_primary, r_boot_get_state, r_boot_get_primary for the boot
    loaders "custom", "noop" and unknown ones (the others: Uboot.v, Grub.v, Barebox.v, Efi.v) *)
Inductive simple_bl := BCustom | BNoop | BUnknown.
Definition boot_set {W} (bl : simple_bl) (run : program W) (op : bootop) (w : W) : W * bool :=
  match bl with
  | BCustom => match op with OpState s good => custom_set_state run s good w | OpPrimary s => custom_set_primary run s w end
  | BNoop => (w, true)
  | BUnknown => (w, false)
  end.
Definition boot_get_primary {W} (bl : simple_bl) (run : program W) (slots : list slot) (w : W) : W * res slot :=
  match bl with BCustom => custom_get_primary run slots w | _ => (w, Err) end.
Definition boot_get_state {W} (bl : simple_bl) (run : program W) (s : slot) (w : W) : W * res bool :=
  match bl with BCustom => custom_get_state run s w | _ => (w, Err) end.

(** requests one after the other *)
Fixpoint requests {W} (bl : simple_bl) (run : program W) (ops : list bootop) (w : W) : W * list bool :=
  match ops with
  | [] => (w, [])
  | op :: r => let '(w1, b) := boot_set bl run op w in
               let '(w2, bs) := requests bl run r w1 in (w2, b :: bs)
  end.
