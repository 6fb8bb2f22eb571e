(** Model of the bundled program test/apollo-test-simple.cpp: the calls it makes to the runtime. Its output is left out.
    The region is not deleted; the destructor of Apollo does that when main has returned. *)
From Coq Require Import ZArith Bool Ascii String List.
From Verif Require Import Model.Base Model.Float Model.ModelStringM Model.PolicyModelsM Model.RuntimeM.
Import ListNotations.
Open Scope Z_scope.

Section Simple.
(** The clock readings and the draws, by number of the execution, and initial weights. *)
Variable started ended : nat -> Z * Z.
Variable D : nat -> draws.
Variable init : nat -> nat -> f64.

(** The region, test/apollo-test-simple.cpp lines 11-12 and 21-22; the other arguments are those of
    include/apollo/Region.h lines 41-43. *)
Definition simple_region : op := OpRegion 1 ($"test-region") 2 0 [] [] init.

(** The body of the loop, test/apollo-test-simple.cpp lines 26-33. *)
Definition simple_execution (i : nat) : list op :=
  [OpBegin 0 false (started i); OpSetFeature 0 None (f32_of_Z 1); OpGetPolicy 0 None (D i); OpEnd 0 None (ended i) None].

(** main, test/apollo-test-simple.cpp lines 21-34. *)
Definition simple_main : list op := simple_region :: flat_map simple_execution (seq 0 10).
End Simple.
