(** C92: the C interface. *)
From Coq Require Import ZArith List.
From Verif Require Import Model.Base Model.Float Model.DatasetM Model.PolicyModelsM Model.ConfigM Model.RuntimeM Model.CInterfaceM
  Spec.TreeSpec Spec.ForestSpec Spec.RuntimeSpec Spec.InsertionSort
  Proofs.InsertionSortFacts Proofs.RuntimeExamples Proofs.CFacts Proofs.SafeExamples Proofs.CExamples Spec.SafeClient Spec.CClient.
Import ListNotations.
Open Scope Z_scope.

Theorem C92_c_client : forall P c files, sorter_ok (p_sort P) -> picker_ok (p_pick P) -> plain c ->
  forall calls, Z.of_nat (List.length calls) < 2 ^ 24 -> c_well_behaved c calls ->
  exists w xs, run P (start_world c files) (map c_call calls) = Ok (w, xs) /\
    forall waits, exists w', step P w (OpShutdown waits) = Ok (w', Done).
Proof. exact c_client. Qed.
Print Assumptions C92_c_client.

Example C92_c_client_nonvacuous : sorter_ok (p_sort example_platform) /\ picker_ok (p_pick example_platform) /\ plain busy_settings /\
  Z.of_nat (List.length c_program) < 2 ^ 24 /\ c_well_behaved busy_settings c_program.
Proof.
  split; [exact insertion_sort_ok|]. split; [exact example_picker_ok|]. split; [exact busy_plain|]. split; [reflexivity|]. exact c_program_behaved.
Qed.

Theorem C92_same_as_contexts : forall P c files calls w xs, run P (start_world c files) (map c_call calls) = Ok (w, xs) ->
  run P (start_world c files) (map c_named calls) = Ok (w, xs).
Proof. exact c_run_named. Qed.
Print Assumptions C92_same_as_contexts.

Theorem C92_never_pending : forall P c files calls w xs, run P (start_world c files) (map c_call calls) = Ok (w, xs) ->
  forall r, pending_of w r = [].
Proof. intros P c files calls w xs H. exact (c_idle P c files calls w xs (c_run_named P c files calls w xs H)). Qed.
Print Assumptions C92_never_pending.

Theorem C92_outside : forall P c files calls w xs o r, run P (start_world c files) (map c_call calls) = Ok (w, xs) ->
  inside o = Some r -> opened calls r = None -> step P w (c_call o) = UB.
Proof. exact c_outside. Qed.
Print Assumptions C92_outside.

Theorem C92_train : forall P c files calls w xs r st w' x,
  run P (start_world c files) (map c_call calls) = Ok (w, xs) -> step P w (c_call (CTrain r st)) = Ok (w', x) ->
  List.length (w_regions w') = List.length (w_regions w) /\
  forall i R, nth_error (w_regions w) i = Some R -> exists m, nth_error (w_regions w') i = Some (with_model R m) /\
    (i = r -> m_trainable (r_model R) = true -> trained_with P (r_model R) (r_dataset R) m) /\
    (i <> r \/ m_trainable (r_model R) = false -> m = r_model R).
Proof. exact c_train. Qed.
Print Assumptions C92_train.

Example C92_runs_nonvacuous : exists w xs w' x, run example_platform (start_world busy_settings []) (map c_call c_trained) = Ok (w, xs) /\
  step example_platform w (c_call (CTrain 0 1)) = Ok (w', x) /\ c_trained_b w = true /\ opened c_trained 1 = None.
Proof. exact c_trained_runs. Qed.
