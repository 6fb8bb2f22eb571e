(** C85: the bundled test program reports failure. *)
From Coq Require Import ZArith List.
From Verif Require Import Model.Base Model.Float Model.PolicyModelsM Model.ConfigM Model.RuntimeM Model.TestM Spec.TreeSpec Spec.ForestSpec Spec.RuntimeSpec
  Proofs.InsertionSortFacts Proofs.RuntimeExamples Proofs.SafeExamples Proofs.TestVerdict Spec.SafeClient.
Import ListNotations.
Open Scope Z_scope.

Theorem C85_fails : forall P c files started ended D init, sorter_ok (p_sort P) -> picker_ok (p_pick P) -> plain c -> (forall j, draws_ok (D j)) ->
  exists w xs w' ys,
    run P (start_world c files) (test_explore started ended D init) = Ok (w, xs) /\ run P w (test_exploit started ended D) = Ok (w', ys) /\
    List.length (answers (test_exploit started ended D) ys 0) = 64%nat /\
    matched test_features (answers (test_exploit started ended D) ys 0) = 16 /\
    test_passes (answers (test_exploit started ended D) ys 0) = false.
Proof. exact test_reports. Qed.
Print Assumptions C85_fails.

Theorem C85_defaults : forall mpi mkdir open_trace c, apollo_instance mpi (fun _ => None) mkdir open_trace = Ok c -> plain c.
Proof. exact defaults_plain. Qed.
Print Assumptions C85_defaults.

Example C85_nonvacuous : sorter_ok (p_sort example_platform) /\ picker_ok (p_pick example_platform) /\
  apollo_instance false (fun _ => None) (fun _ => true) true = Ok defaults /\ plain defaults /\ draws_ok some_draws /\
  List.length test_features = 64%nat /\ test_passes test_features = true.
Proof.
  split; [exact insertion_sort_ok|]. split; [exact example_picker_ok|]. split; [exact defaults_ok|]. split; [exact (defaults_plain _ _ _ _ defaults_ok)|].
  split; [exact (proj1 (some_draws_ok fresh_view 0))|]. split; reflexivity.
Qed.
