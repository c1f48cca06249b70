(** Model of the detection of the booted slot from the kernel command line and the
    bootloader: src/context.c:81-189, src/bootchooser.c:47-78 and the backends'
    get_current_bootname functions. *)
From Verif Require Import Base Slot Image Handlers Install Efi.

(** [\s] of PCRE (without UCP): \t \n \v \f \r and space *)
Definition pcre_space (c : ascii) : bool :=
  match N_of_ascii c with
  | 9%N | 10%N | 11%N | 12%N | 13%N | 32%N => true
  | _ => false
  end.

(** [\S*] (greedy) at the beginning of the string *)
Fixpoint nonspace_run (s : string) : string :=
  match s with
  | EmptyString => EmptyString
  | String a r => if pcre_space a then EmptyString else String a (nonspace_run r)
  end.

(** utils.c:1145-1156 r_regex_match_simple for the patterns
    "(?:k1|k2..)(\S+)" used by context.c and barebox.c, [keys] being the literal
    alternatives: the leftmost position where one of them is followed by a
    non-space; fetches the first group.  Simplified: the subject is valid UTF-8
    (else g_regex_match fails and nothing is found). *)
Fixpoint match_here (keys : list string) (s : string) : option string :=
  match keys with
  | [] => None
  | k :: ks =>
      if has_prefix k s then
        match nonspace_run (sdrop (String.length k) s) with
        | EmptyString => match_here ks s
        | v => Some v
        end
      else match_here ks s
  end.
Fixpoint regex_match (keys : list string) (s : string) : option string :=
  match match_here keys s with
  | Some v => Some v
  | None => match s with EmptyString => None | String _ r => regex_match keys r end
  end.

(** strstr (s, needle) != NULL *)
Fixpoint strstr (s needle : string) : bool :=
  has_prefix needle s ||
  match s with EmptyString => false | String _ r => strstr r needle end.

(** context.c:82-104 get_cmdline_bootname_explicit; [None] as cmdline: NULL, when
    /proc/cmdline could not be read (:65-69). *)
Definition get_cmdline_bootname_explicit (cmdline : option string) : option string :=
  match cmdline with
  | None => None
  | Some c =>
      if strstr c "rauc.external" then Some "_external_"
      else if strstr c "root=/dev/nfs" then Some "_external_"
      else regex_match ["rauc.slot="] c
  end.

(** g_build_filename (dir, name, NULL), [dir] ending in '/': separators at the
    seam are merged. *)
Fixpoint skip_slashes (s : string) : string :=
  match s with
  | String a r => if Ascii.eqb a "/" then skip_slashes r else s
  | EmptyString => EmptyString
  end.
Definition build_filename (dir name : string) : string := (dir ++ skip_slashes name)%string.

(** context.c:121-152: the three tests are made one after the other on the same
    variable. *)
Definition by_link (tag dir b : string) : string :=
  if has_prefix tag b then build_filename dir (sdrop (String.length tag) b) else b.

(** context.c:106-166 get_cmdline_bootname_root; [realpath] is r_realpath
    (utils.c:524-530), None where it fails. *)
Definition get_cmdline_bootname_root (realpath : string -> option string) (cmdline : option string)
  : option string :=
  match cmdline with
  | None => None
  | Some c =>
      match (match regex_match ["root="] c with
             | Some b => Some b
             | None => regex_match ["systemd.verity_root_data="] c
             end) with
      | None => None
      | Some b0 =>
          let b1 := by_link "PARTLABEL=" "/dev/disk/by-partlabel/" b0 in
          let b2 := by_link "PARTUUID=" "/dev/disk/by-partuuid/" b1 in
          let b3 := by_link "UUID=" "/dev/disk/by-uuid/" b2 in
          match realpath b3 with
          | None => Some b3
          | Some r => Some r
          end
      end
  end.

(** The configured bootloader with what its get_current_bootname reads: the custom
    backend's first line of output ([None]: none, or it could not be started) and
    whether it exited with 0; the EFI variables; other bootloaders have no way to
    tell. *)
Inductive bootloader :=
| BlCustom (line : option string) (exit_ok : bool)
| BlEfi (st : efi)
| BlBarebox
| BlOther.

(** custom.c:121-182 r_custom_get_current_bootname *)
Definition custom_get_current_bootname (line : option string) (exit_ok : bool) : res string :=
  if negb exit_ok then Err
  else match line with
       | None => Err
       | Some l => if String.eqb l "" then Err else Ok l
       end.

(** bootchooser.c:48-78 r_boot_get_current_bootname; barebox.c:21-29 (a NULL
    cmdline is caught by g_return_val_if_fail) *)
Definition boot_get_current_bootname (bl : bootloader) (slots : list slot) (cmdline : option string)
  : res (option string) :=
  match bl with
  | BlCustom line ok => do b <- custom_get_current_bootname line ok ;; Ok (Some b)
  | BlEfi st => do b <- efi_get_current_bootname st slots ;; Ok (Some b)
  | BlBarebox =>
      match cmdline with
      | None => Ok None
      | Some c => Ok (regex_match ["bootstate.active="; "bootchooser.active="] c)
      end
  | BlOther => Ok None
  end.

(** context.c:168-188 get_bootname *)
Definition get_bootname (realpath : string -> option string) (bl : bootloader) (slots : list slot)
  (cmdline : option string) : res (option string) :=
  match get_cmdline_bootname_explicit cmdline with
  | Some b => Ok (Some b)
  | None =>
      match boot_get_current_bootname bl slots cmdline with
      | Abort => Abort
      | Ok (Some b) => Ok (Some b)
      | Ok None | Err => Ok (get_cmdline_bootname_root realpath cmdline)
      end
  end.

(** context.c:425-427 and main.c:3044-3046: --override-boot-slot comes first. *)
Definition context_bootslot (override : option string) (realpath : string -> option string)
  (bl : bootloader) (slots : list slot) (cmdline : option string) : res (option string) :=
  match override with
  | Some b => Ok (Some b)
  | None => get_bootname realpath bl slots cmdline
  end.

(** install.c:186-194: the slot's device is compared after r_realpath, or as it is *)
Definition realdev_of (realpath : string -> option string) (d : string) : string :=
  match realpath d with Some r => r | None => d end.
