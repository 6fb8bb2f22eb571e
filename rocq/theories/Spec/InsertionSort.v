(** A concrete sort, used in the examples beside theorems that quantify over every admissible sort. *)
From Coq Require Import List.
From Verif Require Import Model.TreeM.
Import ListNotations.

Fixpoint insert_before (cmp : sample -> sample -> bool) (x : sample) (l : list sample) : list sample :=
  match l with
  | [] => [x]
  | y :: r => if cmp y x then y :: insert_before cmp x r else x :: l
  end.

Definition insertion_sort : sorter := fun cmp l => fold_right (insert_before cmp) [] l.

(** A second one that arranges equivalent elements the other way round. *)
Definition reverse_sort : sorter := fun cmp l => fold_right (insert_before cmp) [] (rev l).
