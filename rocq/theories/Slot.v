(** Slots, as far as several parts of the model use them.
    Models include/slot.h:37-82 (struct _RaucSlot).  Simplified: pointers to
    slots become slot names (slot names are the keys of the [slots] hash table
    and therefore unique); fields used only for mounting/mkfs are omitted;
    runtime status lives in the files that use it. *)
From Verif Require Import Base.

Record slot := mkSlot {
  sl_name : string;              (* name; key in the hash table *)
  sl_class : string;             (* sclass *)
  sl_device : string;            (* device *)
  sl_type : string;              (* type, e.g. "ext4", "raw", "boot-emmc" *)
  sl_bootname : option string;   (* bootname, NULL when not configured *)
  sl_parent : option string;     (* name of parent slot *)
  sl_readonly : bool;
  sl_install_same : bool
}.

(** [g_strcmp0 (word, slot->bootname) == 0] for a non-NULL word. *)
Definition bootname_is (w : string) (s : slot) : bool :=
  match sl_bootname s with Some b => String.eqb w b | None => false end.

(** Pointer equality of slots ([s == slot]): slots are identified by their
    unique name. *)
Definition same_slot (a b : slot) : bool := String.eqb (sl_name a) (sl_name b).

(** Slot names are unique (they are hash table keys, src/config_file.c parse_slots). *)
Definition unique_names (l : list slot) : Prop := NoDup (map sl_name l).

(** Bootnames are unique: the check in src/config_file.c (check_duplicate_bootnames). *)
Definition unique_bootnames (l : list slot) : Prop :=
  forall s t b, In s l -> In t l -> sl_bootname s = Some b -> sl_bootname t = Some b ->
                sl_name s = sl_name t.

(** bootchooser.c:22-45 r_bootchooser_order_primary: bootname of [s] followed by
    the bootnames of all other slots, in hash table iteration order (here: the
    order of the list; theorems quantify over every order). *)
Definition order_primary_words (slots : list slot) (s : slot) (b : string) : list string :=
  b :: flat_map (fun t => if same_slot t s then [] else
                          match sl_bootname t with Some x => [x] | None => [] end) slots.

Definition order_primary (slots : list slot) (s : slot) (b : string) : string :=
  join " " (order_primary_words slots s b).
