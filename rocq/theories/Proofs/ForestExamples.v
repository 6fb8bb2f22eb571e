(** What the examples of C27-C29 use. *)
From Coq Require Import List ZArith Bool Ascii String Lia.
From Flocq Require Import BinarySingleNaN.
From Verif Require Import Model.Base Model.Float Model.TreeM Model.ForestM
  Spec.DecimalSpec Spec.DatasetFileSpec Spec.TreeSpec Spec.TreeFileSpec Spec.InsertionSort Spec.ForestSpec
  Proofs.InsertionSortFacts Proofs.ForestFacts.
Import ListNotations.
Open Scope Z_scope.

(** Four samples of two features and three classes; three trees. *)
Definition ex_features : list (list f32) :=
  [[f32_of_Z 1; f32_of_Z 5]; [f32_of_Z 2; f32_of_Z 4]; [f32_of_Z 3; f32_of_Z 3]; [f32_of_Z 4; f32_of_Z 2]].
Definition ex_responses : list Z := [0; 1; 2; 1].
Definition ex_pick : picker := fun n k => Nat.modulo (k * k) n.

Lemma ex_pick_ok : picker_ok ex_pick.
Proof. intros n k H. apply Nat.mod_upper_bound. lia. Qed.

Lemma ex_ranges : Forall (fun x : list f32 => Z.of_nat (List.length x) < 2 ^ 31 /\ Forall normal_range x) ex_features /\
  Forall is_int ex_responses.
Proof.
  split.
  - apply Forall_forall. intros x Hx. split; [|apply normal_list_b].
    + revert x Hx. apply Forall_forall. repeat (constructor; [reflexivity|]). constructor.
    + revert x Hx. apply forallb_forall. vm_compute. reflexivity.
  - repeat (constructor; [split; discriminate|]). constructor.
Qed.
