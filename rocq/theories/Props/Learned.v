(** Property C89: a trained model only answers policies it has measured. *)
From Coq Require Import ZArith Bool Ascii String List.
From Verif Require Import Model.Base Model.Float Model.ForestM Model.PolicyModelsM Model.ConfigM Model.RuntimeM Spec.RuntimeSpec Spec.LearnedSpec
  Proofs.RuntimeExamples Proofs.RuntimePolicyExamples Proofs.Measured Proofs.LoopExamples.
Import ListNotations.
Open Scope Z_scope.

(** Whatever the client did, as long as each region has its own model and no model or data set is loaded from a file, a
    region with a trained tree, or a trained forest that has trees, answers a policy of which its data set has a metric. *)
Theorem C89_measured_only : forall P c files os w xs r R p D w' k,
  run P (start_world c files) os = Ok (w, xs) -> cf_single_model c = 0 ->
  (forall os1 o os2 w1 xs1, os = os1 ++ o :: os2 -> run P (start_world c files) os1 = Ok (w1, xs1) -> no_load w1 o) ->
  nth_error (w_regions w) r = Some R -> learned (r_model R) -> step P w (OpGetPolicy r p D) = Ok (w', GotPolicy k) -> measured (r_dataset R) k.
Proof. exact measured_only. Qed.
Print Assumptions C89_measured_only.

Example C89_nonvacuous : cf_single_model plain = 0 /\
  (forall os1 o os2 w1 xs1, tree_calls = os1 ++ o :: os2 -> run example_platform (start_world plain []) os1 = Ok (w1, xs1) -> no_load w1 o) /\
  (exists w xs R w', run example_platform (start_world plain []) tree_calls = Ok (w, xs) /\
    nth_error (w_regions w) 0 = Some R /\ learned (r_model R) /\ step example_platform w ask = Ok (w', GotPolicy 0)) /\
  (exists w xs R w', run example_platform (start_world plain []) (forest_calls "3") = Ok (w, xs) /\
    nth_error (w_regions w) 0 = Some R /\ learned (r_model R) /\ step example_platform w ask = Ok (w', GotPolicy 0)).
Proof. exact (conj eq_refl (conj tree_no_load (conj tree_learned forest_learned))). Qed.

(** A trained forest without trees (num_trees=0) has no votes to count and always answers policy 0. *)
Theorem C89_no_trees : forall P w r p D w' k R n f e, nth_error (w_regions w) r = Some R -> r_model R = MForest n false f e -> f_trees f = [] ->
  step P w (OpGetPolicy r p D) = Ok (w', GotPolicy k) -> k = 0.
Proof. exact treeless_zero. Qed.
Print Assumptions C89_no_trees.

Example C89_no_trees_nonvacuous : exists w xs R w', run example_platform (start_world plain []) (forest_calls "0") = Ok (w, xs) /\
  nth_error (w_regions w) 0 = Some R /\ (exists n f e, r_model R = MForest n false f e /\ f_trees f = []) /\ step example_platform w ask = Ok (w', GotPolicy 0).
Proof. exact treeless_run. Qed.
