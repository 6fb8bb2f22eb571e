(** Examples for the split property. *)
From Coq Require Import List ZArith Bool Reals Lra.
From Flocq Require Import Core BinarySingleNaN.
From Verif Require Import Model.Base Model.Float Model.TreeM Model.ForestM Spec.TreeSpec Spec.GreedySpec Spec.InsertionSort Proofs.InsertionSortFacts Proofs.TreeTraining Proofs.TreeExamples.
Import ListNotations.
Open Scope R_scope.

(** Four samples, feature values 1 to 4, the first two of class 0 and the others of class 1. *)
Definition row (v c : Z) : sample := ([f32_of_Z v], c).
Definition first_two : list sample := [row 1 0; row 2 0].
Definition last_two : list sample := [row 3 1; row 4 1].

Lemma pure_division : divided first_two last_two = 0.
Proof. unfold divided, impurity, share, first_two, last_two, row, sum_squares, share. cbn [map snd nodup count_occ in_dec length fold_right plus]. cbn. lra. Qed.
Lemma mixed_division : divided [row 1 0] (row 2 0 :: last_two) = 1 / 3.
Proof. unfold divided, impurity, share, last_two, row, sum_squares, share. cbn. lra. Qed.
Lemma mixed_impurity : impurity (first_two ++ last_two) = 1 / 2.
Proof. unfold impurity, sum_squares, share, first_two, last_two, row. cbn. lra. Qed.

Lemma some_numbers : impurity (first_two ++ last_two) = 1 / 2 /\ divided first_two last_two = 0 /\ divided [row 1 0] (row 2 0 :: last_two) = 1 / 3 /\ slack 2 < 1 / 100000.
Proof. split; [exact mixed_impurity|]. split; [exact pure_division|]. split; [exact mixed_division|]. unfold slack. cbn [INR]. lra. Qed.

Lemma a_deep_tree : exists t', dt_train insertion_sort (new_dtree 3) ex_features ex_responses = Ok t' /\ (tree_depth (t_root t') = 3)%Z /\
  sorter_ok insertion_sort /\ trained insertion_sort 3 [] (new_dtree 3) /\ uniform_samples 2 (combine ex_features ex_responses) /\
  length (nodup Z.eq_dec ex_responses) = 3%nat.
Proof.
  destruct (ok_holds (dt_train insertion_sort (new_dtree 3) ex_features ex_responses) (fun t => tree_depth (t_root t) =? 3)%Z) as (t & E & H); [vm_compute; reflexivity|].
  exists t. split; [exact E|]. split; [now apply Z.eqb_eq|]. split; [exact insertion_sort_ok|]. split; [constructor|]. split; [apply uniform_b; vm_compute; reflexivity|reflexivity].
Qed.

(** Draws going round the samples, starting anywhere. *)
Definition next_sample : picker := fun n k => Nat.modulo (k * 3) n.
Lemma a_forest : exists f', f_train insertion_sort next_sample (new_forest 4 2 3) ex_features ex_responses = Ok f' /\ length (f_trees f') = 2%nat /\
  sorter_ok insertion_sort /\ uniform_samples 2 (combine ex_features ex_responses).
Proof.
  destruct (ok_holds (f_train insertion_sort next_sample (new_forest 4 2 3) ex_features ex_responses) (fun f => length (f_trees f) =? 2)%nat) as (f & E & H); [vm_compute; reflexivity|].
  exists f. split; [exact E|]. split; [now apply Nat.eqb_eq|]. split; [exact insertion_sort_ok|]. apply uniform_b. vm_compute. reflexivity.
Qed.
