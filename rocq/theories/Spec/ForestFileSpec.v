(** The line of a stored forest that lists its classes. *)
From Coq Require Import List ZArith Ascii String.
From Verif Require Import Model.Base Model.Decimal.
Import ListNotations.
Open Scope Z_scope.

Definition classes_line (cs : list Z) : bytes :=
  $"  classes: [ " ++ List.concat (map (fun c => print_Z c ++ $", ") cs) ++ $"]," ++ [nl].

(** 0, 1, ..., k-1. *)
Definition all_classes (k : Z) : list Z := map Z.of_nat (seq 0 (Z.to_nat k)).
