(** What the examples of C25, C26 and C59 use. *)
From Coq Require Import List ZArith Bool Ascii String.
From Flocq Require Import BinarySingleNaN.
From Verif Require Import Model.Base Model.Float Model.Decimal Model.ParserM Model.TreeM Model.TreeIO
  Spec.DecimalSpec Spec.DatasetFileSpec Spec.TreeSpec Spec.TreeFileSpec Spec.InsertionSort
  Proofs.DatasetFileTheorems Proofs.InsertionSortFacts Proofs.TreeFileProps.
Import ListNotations.
Open Scope Z_scope.

(** A tree with an inner node without a right child, two data records and three classes. *)
Definition ex_leaf (c : Z) (counts : list Z) : tree := Node (f32_of_Z 0) 1 c (-1) (f32_of_Z 0) Null Null counts.
Definition ex_tree : dtree :=
  mkTree [([f32_of_Z 3; f32_of_Z (-2)], 1); ([], 5)] [1; 4; 5]
    (Node (f32_of_Z 2) 3 1 0 (f32_of_Z 7) (ex_leaf 4 [1; 0; 2])
       (Node (f32_of_Z 0) 2 5 1 (f32_of_Z (-40)) (ex_leaf 5 [0; 0; 7]) Null [2; 0; 0]) [1; 1; 1]) 2 3.
