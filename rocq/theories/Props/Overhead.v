(** Property C99: the bundled benchmark evaluates its tree on no features. *)
From Coq Require Import ZArith Bool Ascii String List.
From Verif Require Import Model.Base Model.Float Model.PolicyModelsM Model.ConfigM Model.RuntimeM Model.OverheadM Spec.TreeSpec Spec.OverheadSpec
  Proofs.RuntimeExamples Proofs.SafeExamples Proofs.TestVerdict Proofs.OverheadFacts Proofs.OverheadExamples.
Import ListNotations.
Open Scope Z_scope.

(** With at least one feature, two policies and two training vectors, each vector being executed under one policy only
    (as many repetitions as vectors, or a number of vectors that the number of policies divides), executions and training
    succeed and the evaluation is undefined: it asks the tree for a policy without having set a feature. *)
Theorem C99_benchmark_undefined : forall P c files started ended D init, sorter_ok (p_sort P) -> bare c ->
  forall argc features policies data reps, 5 <= argc -> 1 <= features < 2 ^ 31 -> 2 <= policies <= 1024 -> 2 <= data <= 2 ^ 24 ->
  data <= reps < 2 ^ 31 - 1 -> reps = data \/ (policies | data) ->
  (exists w, overhead_build P started ended D init features policies data reps (start_world c files) = Ok w) /\
  overhead_main P started ended D init argc features policies data reps (start_world c files) = UB.
Proof. exact benchmark_wrong. Qed.
Print Assumptions C99_benchmark_undefined.

(** With one vector, or without features, the tree is a leaf and the program ends normally. *)
Theorem C99_benchmark_completes : forall P c files started ended D init, sorter_ok (p_sort P) -> bare c ->
  forall argc features policies data reps, 5 <= argc -> 0 <= features < 2 ^ 31 -> 1 <= policies <= 1024 -> 1 <= data <= reps -> reps < 2 ^ 31 - 1 ->
  features = 0 \/ data = 1 ->
  exists w, overhead_main P started ended D init argc features policies data reps (start_world c files) = Ok (0, w).
Proof. exact benchmark_right. Qed.
Print Assumptions C99_benchmark_completes.

(** No training data passes the check of line 32 and divides by zero on line 57. *)
Theorem C99_no_training_data : forall P c files started ended D init, bare c ->
  forall argc features policies reps, 5 <= argc -> 1 <= features < 2 ^ 31 -> 0 <= policies < 2 ^ 31 -> 1 <= reps < 2 ^ 31 ->
  overhead_main P started ended D init argc features policies 0 reps (start_world c files) = UB.
Proof. exact benchmark_zero. Qed.
Print Assumptions C99_no_training_data.

Theorem C99_refused : forall P started ended D init argc a1 a2 a3 a4 w, argc < 5 \/ 0 <= a4 < a3 /\ a3 < 2 ^ 31 ->
  overhead_main P started ended D init argc a1 a2 a3 a4 w = Ok (1, w).
Proof. exact benchmark_refuses. Qed.
Print Assumptions C99_refused.

Example C99_nonvacuous :
  apollo_instance false (fun _ => None) (fun _ => true) true = Ok defaults /\ bare defaults /\ sorter_ok (p_sort example_platform) /\
  (exists w, overhead_build example_platform ticking ticked (fun _ => some_draws) no_init 2 4 20 1000 (start_world defaults []) = Ok w) /\
  (exists w, overhead_main example_platform ticking ticked (fun _ => some_draws) no_init 5 2 4 1 1000 (start_world defaults []) = Ok (0, w)).
Proof. exact benchmark_cases. Qed.
