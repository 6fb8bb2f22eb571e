(** C83: clients that keep to the rules of the interface never break the runtime. *)
From Coq Require Import ZArith List.
From Verif Require Import Model.Base Model.PolicyModelsM Model.ConfigM Model.RuntimeM Spec.TreeSpec Spec.ForestSpec Spec.RuntimeSpec Spec.InsertionSort
  Proofs.InsertionSortFacts Proofs.RuntimeExamples Proofs.SafeSteps Proofs.SafeExamples Spec.SafeClient.
Import ListNotations.
Open Scope Z_scope.

Theorem C83_safe : forall P c, sorter_ok (p_sort P) -> picker_ok (p_pick P) -> plain c ->
  forall files os, Z.of_nat (List.length os) < 2 ^ 24 -> well_behaved P c files os ->
  exists w xs, run P (start_world c files) os = Ok (w, xs) /\
    ((forall r, pending_of w r = []) -> forall waits, exists w', step P w (OpShutdown waits) = Ok (w', Done)).
Proof. exact safe_runs. Qed.
Print Assumptions C83_safe.

Example C83_nonvacuous : sorter_ok (p_sort example_platform) /\ picker_ok (p_pick example_platform) /\ plain busy_settings /\
  Z.of_nat (List.length busy) < 2 ^ 24 /\ well_behaved example_platform busy_settings [] busy.
Proof.
  split; [exact insertion_sort_ok|]. split; [exact example_picker_ok|]. split; [exact busy_plain|]. split; [reflexivity|].
  exact (busy_behaved example_platform []).
Qed.
