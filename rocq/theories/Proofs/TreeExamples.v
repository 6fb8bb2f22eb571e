(** What the examples of C20-C22, C24 and C58 use. *)
From Coq Require Import List ZArith Bool Permutation Reals.
From Flocq Require Import Core BinarySingleNaN.
From Verif Require Import Model.Base Model.Float Model.TreeM Spec.DatasetSpec Spec.TreeSpec Spec.InsertionSort
  Proofs.TreeFacts Proofs.TreeLabels Proofs.TreeThreshold Proofs.TreeTotal Proofs.TreeTraining Proofs.InsertionSortFacts.
Import ListNotations.
Open Scope Z_scope.

(** Three features, three classes; two features carry equal values so the order of ties matters. *)
Definition ex_features : list (list f32) :=
  [[f32_of_Z 3; f32_of_Z 1]; [f32_of_Z 1; f32_of_Z 1]; [f32_of_Z 1; f32_of_Z 2]; [f32_of_Z 5; f32_of_Z 2]].
Definition ex_responses : list Z := [2; 1; 2; 3].
