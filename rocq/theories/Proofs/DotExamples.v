From Coq Require Import List ZArith Bool Ascii String.
From Verif Require Import Model.Base Model.Decimal Model.DotM Spec.DotSpec.
From Coq Require Import List.
Import ListNotations.

(** A tree whose right part is a leaf and one whose right part is split again. *)
Definition leaning : shape := Fork ($"a") (Fork ($"b") (Tip ($"c")) (Tip ($"d"))) (Tip ($"e")).
Definition rightward : shape := Fork ($"a") (Tip ($"b")) (Fork ($"c") (Tip ($"d")) (Tip ($"e"))).

(** A tree of Apollo with three leaves. *)
Definition three_leaves : bytes * ynode :=
  ($"max_depth: 2", YNode ($"x0") (Some (YNode ($"0") None None)) (Some (YNode ($"x1") (Some (YNode ($"1") None None)) (Some (YNode ($"2") None None))))).
