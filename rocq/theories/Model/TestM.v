(** Model of the bundled test program, test/apollo-test.cpp: the calls it makes to the runtime and what it reports. The
    waiting of lines 20-30 and 65 only moves the clock, whose readings are a parameter; output other than the verdict is left
    out. Every rank of test/apollo-test-mpi.cpp makes the same calls (its lines 15-17, 45-89 and 94), after MPI_Init. *)
From Coq Require Import ZArith Bool Ascii String List.
From Verif Require Import Model.Base Model.Float Model.ModelStringM Model.PolicyModelsM Model.RuntimeM.
Import ListNotations.
Open Scope Z_scope.

(** NUM_POLICIES and REPS, test/apollo-test.cpp lines 14-15. *)
Definition test_policies : nat := 4.
(** See [test_policies]. test/apollo-test.cpp line 15. *)
Definition test_reps : nat := 4.

(** The features of one outer iteration, in order, test/apollo-test.cpp lines 53-56. *)
Definition test_features : list Z :=
  flat_map (fun _ => flat_map (fun i => map (fun k => (Z.of_nat k + Z.of_nat i) mod Z.of_nat test_policies) (seq 0 test_policies))
    (seq 0 test_policies)) (seq 0 test_reps).

Section Test.
(** The clock readings of the begin and end calls, the draws and the initial weights no tree uses, by number of the
    execution. *)
Variable started ended : nat -> Z * Z.
Variable D : nat -> draws.
Variable init : nat -> nat -> f64.

(** The body of the innermost loop, test/apollo-test.cpp lines 57-72, for the execution number [j]. *)
Definition test_execution (j : nat) (x : Z) : list op :=
  [OpBegin 0 false (started j); OpSetFeature 0 None (f32_of_Z x); OpGetPolicy 0 None (D j); OpEnd 0 None (ended j) None].

(** The loops of lines 53-75 over the given features, from execution number [j]. *)
Fixpoint test_iteration (j : nat) (xs : list Z) : list op :=
  match xs with
  | [] => []
  | x :: rest => test_execution j x ++ test_iteration (S j) rest
  end.

(** Lines 40-44: the region. test/apollo-test.cpp lines 40-44. *)
Definition test_region : op := OpRegion 1 ($"test-region") (Z.of_nat test_policies) 0 ($"DecisionTree,max_depth=3") [] init.

(** Up to `apollo->train(0)`, line 84. *)
Definition test_explore : list op := test_region :: test_iteration 0 test_features ++ [OpTrainAll 0 true].

(** The second outer iteration. test/apollo-test.cpp lines 49-75. *)
Definition test_exploit : list op := test_iteration (List.length test_features) test_features.
End Test.

(** `match`, lines 50 and 64-70: the executions whose policy is the feature. *)
Fixpoint matched (features answers : list Z) : Z :=
  match features, answers with
  | x :: features, a :: answers => (if a =? x then 1 else 0) + matched features answers
  | _, _ => 0
  end.

(** Line 88: whether PASSED is printed. test/apollo-test.cpp line 88. *)
Definition test_passes (answers : list Z) : bool :=
  matched test_features answers =? Z.of_nat (test_reps * test_policies * test_policies).
