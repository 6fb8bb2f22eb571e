(** C113 and C114: the simple bundled program and the one for jobs. *)
From Coq Require Import ZArith String List.
From Verif Require Import Model.Base Model.Decimal Model.Float Model.ModelStringM Model.PolicyModelsM Model.ConfigM Model.RuntimeM Model.TestM Model.SimpleTestM Model.MpiM Model.JobM
  Spec.TreeSpec Spec.ForestSpec Spec.RuntimeSpec Spec.MpiSpec Spec.JobSpec
  Proofs.InsertionSortFacts Proofs.RuntimeExamples Proofs.MpiExamples Proofs.SafeExamples Proofs.TestVerdict Proofs.SimpleTest Proofs.MpiLearn Proofs.MpiTest Proofs.MpiTestExamples Spec.SafeClient.
Import ListNotations.
Open Scope Z_scope.

(** ** C113 *)

Theorem C113_completes : forall P c files started ended D init, sorter_ok (p_sort P) -> picker_ok (p_pick P) -> plain c -> model_string_ok (cf_policy_model c) ->
  (forall j, draws_ok (D j)) -> (forall j l, l <> [] -> exists i, d_discrete (D j) l = Ok i) ->
  exists w xs, run P (start_world c files) (simple_main started ended D init) = Ok (w, xs) /\
    List.length (answers (simple_main started ended D init) xs 0) = 10%nat /\
    Forall (fun k => 0 <= k < 2) (answers (simple_main started ended D init) xs 0) /\
    forall waits, exists w', step P w (OpShutdown waits) = Ok (w', Done).
Proof. exact simple_runs. Qed.
Print Assumptions C113_completes.

(** With a fixed policy, every answer is that policy, or 0 if there is no such policy. *)
Theorem C113_static : forall P c files started ended D init p w xs, 0 <= p <= 2147483647 -> cf_policy_model c = $"Static,policy=" ++ print_Z p ->
  run P (start_world c files) (simple_main started ended D init) = Ok (w, xs) ->
  Forall (eq (if p <? 2 then p else 0)) (answers (simple_main started ended D init) xs 0).
Proof. exact simple_static. Qed.
Print Assumptions C113_static.

Example C113_nonvacuous : sorter_ok (p_sort example_platform) /\ picker_ok (p_pick example_platform) /\
  apollo_instance false (fun _ => None) (fun _ => true) true = Ok defaults /\ plain defaults /\ model_string_ok (cf_policy_model defaults) /\
  cf_policy_model defaults = $"Static,policy=" ++ print_Z 0 /\ draws_ok some_draws /\ (forall l, l <> [] -> exists i, d_discrete some_draws l = Ok i).
Proof.
  split; [exact insertion_sort_ok|]. split; [exact example_picker_ok|]. split; [exact defaults_ok|]. split; [exact (defaults_plain _ _ _ _ defaults_ok)|].
  split; [exact defaults_string|]. split; [exact defaults_text|]. split; [exact (proj1 (some_draws_ok fresh_view 0))|]. intros [|x l] H; [contradiction|exists 0; reflexivity].
Qed.

(** ** C114 *)

(** In a job, a decision tree that has been trained answers with one policy, whatever the ranks have exchanged. *)
Theorem C114_one_answer : forall P M cs os ws i c files w r R n t e os2 w2 xs2, sorter_ok (p_sort P) ->
  job_run M P (start_job cs) os = Ok ws -> nth_error cs i = Some (c, files) -> nth_error ws i = Some w ->
  (forall os1 o os2 ws1 w1, os = os1 ++ Local i o :: os2 -> job_run M P (start_job cs) os1 = Ok ws1 -> nth_error ws1 i = Some w1 -> no_load w1 o) ->
  nth_error (w_regions w) r = Some R -> r_model R = MTree n false t e ->
  run P w os2 = Ok (w2, xs2) -> cf_single_model c = 0 -> Forall unforced os2 ->
  exists k, Forall (eq k) (answers os2 xs2 r).
Proof. exact job_one_answer. Qed.
Print Assumptions C114_one_answer.

Example C114_one_answer_nonvacuous : exists ws w R n t e, job_run native_mpi example_platform (start_job (repeat (together, []) 2)) mpi_test_events = Ok ws /\ nth_error ws 0 = Some w /\
  (forall os1 o os2 ws1 w1, mpi_test_events = os1 ++ Local 0 o :: os2 -> job_run native_mpi example_platform (start_job (repeat (together, []) 2)) os1 = Ok ws1 -> nth_error ws1 0 = Some w1 -> no_load w1 o) /\
  nth_error (w_regions w) 0 = Some R /\ r_model R = MTree n false t e /\ Forall unforced exploit2.
Proof. exact mpi_one_answer_example. Qed.

(** A rank that makes the calls of test/apollo-test-mpi.cpp matches at most 16 of 64 times. *)
Theorem C114_fails : forall M P cs os ws i c files started ended D init w w' ys, sorter_ok (p_sort P) ->
  job_run M P (start_job cs) os = Ok ws -> nth_error cs i = Some (c, files) -> cf_single_model c = 0 -> cf_persistent c = 0 ->
  calls_of i os = test_explore started ended D init -> nth_error ws i = Some w -> run P w (test_exploit started ended D) = Ok (w', ys) ->
  List.length (answers (test_exploit started ended D) ys 0) = 64%nat /\ matched test_features (answers (test_exploit started ended D) ys 0) <= 16 /\
  test_passes (answers (test_exploit started ended D) ys 0) = false.
Proof. exact mpi_test_fails. Qed.
Print Assumptions C114_fails.

(** Two ranks that run the program and train together. *)
Example C114_nonvacuous : exists ws, job_run native_mpi example_platform (start_job (repeat (together, []) 2)) mpi_test_events = Ok ws /\
  cf_single_model together = 0 /\ cf_persistent together = 0 /\ cf_collective together = 1 /\
  forall i, (i < 2)%nat -> calls_of i mpi_test_events = explore2 /\ exists w, nth_error ws i = Some w /\ exists w' ys, run example_platform w exploit2 = Ok (w', ys).
Proof. destruct mpi_test_job as (ws & E & H). exists ws. split; [exact E|]. repeat (split; [reflexivity|]). exact H. Qed.
