(** A backend program that keeps its data in a table, and fails when asked for a bootname it does not know. *)
From Verif Require Import Base BaseLemmas Slot Mark ContextSpec Custom CustomSpec CustomProofs.
From Verif Require ContextProofs.

Definition nl : string := String "010" "".
Definition ex_run : program bootview := fun w args =>
  match args with
  | ["get-primary"] => (w, Ran (bv_primary w ++ nl) (if (String.eqb (bv_primary w) "A" || String.eqb (bv_primary w) "B")%bool then Some 0 else Some 1))
  | ["get-state"; b] => (w, Ran ((if bv_good w b then "good" else "bad") ++ nl) (Some 0))
  | ["set-primary"; b] => if (String.eqb b "A" || String.eqb b "B")%bool then (mkView b (bv_good w), Ran "" (Some 0)) else (w, Ran "" (Some 2))
  | ["set-state"; b; g] =>
      if String.eqb g "good" then (mkView (bv_primary w) (fun x => if String.eqb x b then true else bv_good w x), Ran "ok" (Some 0))
      else if String.eqb g "bad" then (mkView (bv_primary w) (fun x => if String.eqb x b then false else bv_good w x), Ran "ok" (Some 0))
      else (w, NotStarted)
  | _ => (w, Ran "" None)
  end.
Lemma ex_conforms : conforms ex_run (fun w => w).
Proof.
  split.
  - intros w w' o H. cbn in H. destruct w as [p g]. cbn in *. destruct (String.eqb_spec p "A") as [->|]; [|destruct (String.eqb_spec p "B") as [->|]];
      apply pair_equal_spec in H as [<- <-]; (split; [reflexivity|]); cbn.
    + left. exists ("A" ++ nl)%string. split; [reflexivity|]. split; [reflexivity|]. exists "", nl. split; [reflexivity|]. split; [reflexivity|]. split; [reflexivity|]. split.
      * intros c r E. injection E as <- _. reflexivity.
      * intros c [|x [|y r]] E; cbn in E; try discriminate. injection E as <-. reflexivity.
    + left. exists ("B" ++ nl)%string. split; [reflexivity|]. split; [reflexivity|]. exists "", nl. split; [reflexivity|]. split; [reflexivity|]. split; [reflexivity|]. split.
      * intros c r E. injection E as <- _. reflexivity.
      * intros c [|x [|y r]] E; cbn in E; try discriminate. injection E as <-. reflexivity.
    + right. intros out E. discriminate E.
  - intros w w' o b H. apply pair_equal_spec in H as [<- <-]. split; [reflexivity|]. left. destruct (bv_good w b).
    + exists ("good" ++ nl)%string. split; [reflexivity|]. split; [reflexivity|]. exists "", nl. split; [reflexivity|]. split; [reflexivity|]. split; [reflexivity|]. split.
      * intros c r E. injection E as <- _. reflexivity.
      * intros c r E. change "good" with ("goo" ++ String "d" "")%string in E. apply ContextProofs.snoc_inj in E. destruct E as [_ <-]. reflexivity.
    + exists ("bad" ++ nl)%string. split; [reflexivity|]. split; [reflexivity|]. exists "", nl. split; [reflexivity|]. split; [reflexivity|]. split; [reflexivity|]. split.
      * intros c r E. injection E as <- _. reflexivity.
      * intros c r E. change "bad" with ("ba" ++ String "d" "")%string in E. apply ContextProofs.snoc_inj in E. destruct E as [_ <-]. reflexivity.
  - intros w w' o b H. cbn in H. destruct (String.eqb b "A" || String.eqb b "B")%bool.
    + left. apply pair_equal_spec in H as [<- <-]. split; [eauto|]. split; reflexivity.
    + right. apply pair_equal_spec in H as [<- <-]. split; [intros out E; discriminate E|reflexivity].
  - intros w w' o b [] H; apply pair_equal_spec in H as [<- <-]; left; split; eauto.
Qed.
Definition exA := mkSlot "rootfs.0" "rootfs" "/dev/a" "ext4" (Some "A") None false true.
Definition exB := mkSlot "rootfs.1" "rootfs" "/dev/b" "ext4" (Some "B") None false true.
Definition exC := mkSlot "rescue.0" "rescue" "/dev/c" "ext4" (Some "C") None false true.
Lemma ex_unique : bootnames_unique [exA; exB; exC].
Proof. intros s t b [<-|[<-|[<-|[]]]] [<-|[<-|[<-|[]]]] H1 H2; cbn in *; congruence. Qed.
