(** Property C90: the training loop of the documentation never tries a policy other than 0. *)
From Coq Require Import ZArith Bool Ascii String List.
From Verif Require Import Model.Base Model.Float Model.PolicyModelsM Model.ConfigM Model.RuntimeM Model.LoopM Spec.TreeSpec Spec.ForestSpec Spec.RuntimeSpec
  Proofs.InsertionSortFacts Proofs.RuntimeExamples Proofs.RuntimePolicyExamples Spec.SafeClient Proofs.SafeExamples Spec.LoopSpec Proofs.LoopFacts Proofs.LoopExamples.
Import ListNotations.
Open Scope Z_scope.

(** The loop of HOWTO.md lines 66-90, run with a tree or forest that explores with RoundRobin, runs to its end and gets
    policy 0 in every iteration, whatever the features, the number of policies and the times taken: `if(i%100)` trains
    after the first iteration, when only policy 0 has been measured. *)
Theorem C90_loop_never_tunes : forall P c files started ended D init name np,
  sorter_ok (p_sort P) -> picker_ok (p_pick P) -> plain c -> learning_string (cf_policy_model c) -> 1 <= np <= 1024 -> (forall j, draws_ok (D j)) ->
  forall xs, Forall (loop_feature c) xs -> Z.of_nat (List.length xs) < 2 ^ 21 ->
  exists w ys, run P (start_world c files) (documented_loop started ended D init name np xs) = Ok (w, ys) /\
    answers (documented_loop started ended D init name np xs) ys 0 = repeat 0 (List.length xs).
Proof. exact loop_never_tunes. Qed.
Print Assumptions C90_loop_never_tunes.

(** The settings of HOWTO.md line 93 without the period; without the calls of train the policies are tried in turn. *)
Example C90_nonvacuous : sorter_ok (p_sort example_platform) /\ picker_ok (p_pick example_platform) /\ plain loop_settings /\
  learning_string (cf_policy_model loop_settings) /\ draws_ok fair_draws /\ Forall (loop_feature loop_settings) loop_sizes /\
  exists w ys, run example_platform (start_world loop_settings []) (filter no_train documented_calls) = Ok (w, ys) /\
    answers (filter no_train documented_calls) ys 0 = [0; 1; 2].
Proof. exact (conj insertion_sort_ok (conj example_picker_ok (conj loop_plain (conj loop_string (conj fair_draws_ok (conj loop_sizes_ok untrained_loop)))))). Qed.
