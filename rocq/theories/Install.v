(** Model of the target selection and planning part of src/install.c. *)
From Verif Require Import Base Slot Image Handlers.

(** include/slot.h: SlotState (without ST_UNKNOWN, which only occurs before
    determine_slot_states succeeded; do_install_bundle asserts that it did). *)
Inductive slot_state := ST_ACTIVE | ST_INACTIVE | ST_BOOTED.

Definition state_eqb (a b : slot_state) : bool :=
  match a, b with
  | ST_ACTIVE, ST_ACTIVE | ST_INACTIVE, ST_INACTIVE | ST_BOOTED, ST_BOOTED => true
  | _, _ => false
  end.

Definition states := string -> slot_state.   (* slot name -> slot->state *)

(** install.c:168-197: does [s] match the boot slot information?  [realdev] is
    r_realpath, or the identity where that fails. *)
Definition matches_bootslot (realdev : string -> string) (bootslot : string) (s : slot) : bool :=
  (match sl_bootname s with Some b => String.eqb b bootslot | None => false end)
  || String.eqb (sl_name s) bootslot
  || String.eqb (realdev (sl_device s)) bootslot.

(** install.c:218-232 *)
Definition state_from_booted (slots : list slot) (booted : slot) (name : string) : slot_state :=
  match find (fun s => String.eqb (sl_name s) name) slots with
  | None => ST_INACTIVE
  | Some s =>
      if same_slot s booted then ST_BOOTED
      else match sl_parent s with
           | Some p => if String.eqb p (sl_name booted) then ST_ACTIVE else ST_INACTIVE
           | None => ST_INACTIVE
           end
  end.

(** install.c:148-240 determine_slot_states.  [bootslot] = None: no information on
    the command line.  g_hash_table_get_keys lists the table in reverse iteration
    order. *)
Definition determine_slot_states (realdev : string -> string) (bootslot : option string)
  (slots : list slot) : res states :=
  match bootslot with
  | None => Err
  | Some bs =>
      match find (matches_bootslot realdev bs) (rev slots) with
      | Some booted => Ok (state_from_booted slots booted)
      | None => if String.eqb bs "_external_" then Ok (fun _ => ST_INACTIVE) else Err
      end
  end.

(** The part of RaucSlotStatus that target selection looks at. *)
Record sel_status := mkSel {
  ss_status : option string;       (* status->status *)
  ss_installed : option Z          (* status->installed_timestamp *)
}.

(** install.c:311-377 select_inactive_slot_class_member: the loop; [best] is
    selectslot. *)
Fixpoint select_loop (per_slot : bool) (st : states) (info : string -> sel_status) (cls : string)
  (slots : list slot) (best : option slot) : option slot :=
  match slots with
  | [] => best
  | s :: ss =>
      if negb (state_eqb (st (sl_name s)) ST_INACTIVE) then select_loop per_slot st info cls ss best
      else if negb (String.eqb (sl_class s) cls) then select_loop per_slot st info cls ss best
      else if per_slot then Some s
      else
        if opt_is (ss_status (info (sl_name s))) "failed" then Some s
        else match ss_installed (info (sl_name s)) with
        | None => Some s
        | Some t =>
            match best with
            | None => select_loop per_slot st info cls ss (Some s)
            | Some b =>
                match ss_installed (info (sl_name b)) with
                | Some t' => if (t <? t')%Z then select_loop per_slot st info cls ss (Some s)
                             else select_loop per_slot st info cls ss best
                | None => select_loop per_slot st info cls ss best   (* not reached *)
                end
            end
        end
  end.
Definition select_inactive per_slot st info cls slots := select_loop per_slot st info cls slots None.

(** g_ptr_array_remove_fast: the first match is replaced by the last element. *)
Fixpoint replace_first (x y : string) (l : list string) : list string :=
  match l with
  | [] => []
  | a :: r => if String.eqb a x then y :: r else a :: replace_first x y r
  end.
Definition remove_fast (x : string) (l : list string) : list string :=
  if existsb (String.eqb x) l then removelast (replace_first x (last l "") l) else l.

(** the "avoid duplicates" loops: install.c:282-296, slot.c:353-363 *)
Definition add_class (l : list string) (c : string) : list string := remove_fast c l ++ [c].

(** slot.c:343-366 r_slot_get_root_classes *)
Definition root_classes (slots : list slot) : list string :=
  fold_left add_class (map sl_class (filter (fun s => match sl_parent s with None => true | _ => false end) slots)) [].

(** slot.c:189-200 r_slot_get_parent_root: follow the parent links.  [fuel] bounds
    the walk; config_file.c:20-56 (property C29) guarantees that one step is enough. *)
Fixpoint parent_root (fuel : nat) (slots : list slot) (s : slot) : slot :=
  match fuel, sl_parent s with
  | S n, Some p =>
      match find (fun t => String.eqb (sl_name t) p) slots with
      | Some r => parent_root n slots r
      | None => s
      end
  | _, _ => s
  end.

(** slot class -> target slot *)
Definition target_group := string -> option slot.

(** install.c:392-437 determine_target_install_group *)
Definition selected_roots per_slot st info (slots : list slot) : list slot :=
  flat_map (fun c => match select_inactive per_slot st info c slots with Some s => [s] | None => [] end)
           (root_classes slots).

Definition determine_target_group per_slot st info (slots : list slot) : target_group :=
  let sel := selected_roots per_slot st info slots in
  fold_left (fun tg s =>
     if existsb (same_slot (parent_root (List.length slots) slots s)) sel
     then upd tg (sl_class s) (Some s) else tg) slots (fun _ => None).

(** *** plans *)
Inductive target := TSlot (s : slot) (h : handler) | TRepo (r : string).
Record plan := mkPlan { pl_image : image; pl_target : target }.

(** install.c:278-300 get_all_manifest_slot_classes *)
Definition manifest_classes (imgs : list image) : list string :=
  fold_left add_class
    (map im_class (filter (fun i => match im_artifact i with None => true | _ => false end) imgs)) [].

(** install.c:464-487: image for one class; [best] = matching_img *)
Fixpoint match_image (sysvariant : option string) (cls : string) (imgs : list image) (best : option image)
  : option image :=
  match imgs with
  | [] => best
  | i :: r =>
      if negb (String.eqb (im_class i) cls) then match_image sysvariant cls r best
      else match im_variant i with
           | None => match_image sysvariant cls r (match best with None => Some i | b => b end)
           | Some v =>
               match sysvariant with
               | Some w => if String.eqb v w then Some i else match_image sysvariant cls r best
               | None => match_image sysvariant cls r best
               end
           end
  end.

(** install.c:460-526 for one class *)
Definition plan_class (sysvariant : option string) (imgs : list image) (tg : target_group) (cls : string)
  : res plan :=
  match match_image sysvariant cls imgs None with
  | None => Err                                                    (* :491-497 *)
  | Some i =>
      match tg (im_class i) with
      | None => Err                                                (* :504-510 *)
      | Some s =>
          if sl_readonly s then Err                                (* :511-517 *)
          else do h <- get_update_handler i s ;;                   (* :520-524 *)
               Ok (mkPlan i (TSlot s h))
      end
  end.

Fixpoint map_res {A B} (f : A -> res B) (l : list A) : res (list B) :=
  match l with
  | [] => Ok []
  | a :: r => do b <- f a ;; do bs <- map_res f r ;; Ok (b :: bs)
  end.

(** install.c:541-558 for one artifact image *)
Definition plan_artifact (repos : list string) (i : image) : res plan :=
  if existsb (String.eqb (im_class i)) repos then Ok (mkPlan i (TRepo (im_class i))) else Err.

(** install.c:450-569 r_install_make_plans.  [artifacts_ok]: r_artifacts_init and
    r_artifacts_prune succeeded (:530-538). *)
Definition make_plans (sysvariant : option string) (imgs : list image) (tg : target_group)
  (repos : list string) (artifacts_ok : bool) : res (list plan) :=
  do ps <- map_res (plan_class sysvariant imgs tg) (manifest_classes imgs) ;;
  if negb artifacts_ok then Err else
  do qs <- map_res (plan_artifact repos)
             (filter (fun i => match im_artifact i with Some _ => true | None => false end) imgs) ;;
  match ps ++ qs with
  | [] => Err                                                      (* :560-566 *)
  | l => Ok l
  end.

(** install.c:1237-1268 get_boot_mark_slot; g_error aborts. *)
Fixpoint boot_mark_slot (ps : list plan) (found : option slot) : res (option slot) :=
  match ps with
  | [] => Ok found
  | p :: r =>
      match pl_target p with
      | TRepo _ => boot_mark_slot r found
      | TSlot s _ =>
          match sl_parent s, sl_bootname s with
          | None, Some _ =>
              match found with
              | Some _ => Abort
              | None => boot_mark_slot r (Some s)
              end
          | _, _ => boot_mark_slot r found
          end
      end
  end.

(** Facts about the environment that pre_install_checks tests. *)
Record checks := mkChecks {
  ck_file : string -> bool;        (* file exists in the bundle *)
  ck_device : string -> bool;      (* slot device exists, by slot name *)
  ck_mounted : string -> bool;     (* mount_point or ext_mount_point set, by slot name *)
  ck_allow_mounted : string -> bool;
  ck_repo : string -> bool         (* repo path exists *)
}.

(** install.c:996-1015 pre_install_check_slot_mount_status *)
Definition mount_ok (ck : checks) (s : slot) (i : image) : bool :=
  negb (ck_mounted ck (sl_name s)) || (ck_allow_mounted ck (sl_name s) && im_install i).

(** install.c:1017-1094 pre_install_checks for one plan *)
Definition check_plan (ck : checks) (p : plan) : res unit :=
  let i := pl_image p in
  do _ <- (match im_filename i with
           | None => if im_install i then Ok tt else Abort         (* :1027-1034 *)
           | Some f =>
               if negb (ck_file ck f) && (match im_converted i with [] => true | _ => false end) then Err
               else if forallb (ck_file ck) (im_converted i) then Ok tt else Err
           end) ;;
  match pl_target p with
  | TSlot s _ => if negb (ck_device ck (sl_name s)) then Err
                 else if mount_ok ck s i then Ok tt else Err
  | TRepo r => if ck_repo ck r then Ok tt else Err
  end.

Fixpoint pre_install_checks (ck : checks) (ps : list plan) : res unit :=
  match ps with
  | [] => Ok tt
  | p :: r => do _ <- check_plan ck p ;; pre_install_checks ck r
  end.
