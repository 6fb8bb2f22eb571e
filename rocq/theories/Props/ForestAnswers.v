(** Property C115: a trained random forest gives one answer. *)
From Coq Require Import ZArith Bool Ascii String Lia List.
From Verif Require Import Model.Base Model.Float Model.DatasetM Model.TreeM Model.ForestM Model.PolicyModelsM Model.ConfigM Model.RuntimeM
  Spec.DatasetSpec Spec.TreeSpec Spec.ForestSpec Spec.InsertionSort Spec.PolicyModelsSpec Spec.RuntimeSpec Proofs.InsertionSortFacts Proofs.RuntimePolicyExamples
  Proofs.ForestExamples Proofs.ForestLearn Proofs.ForestLearnExamples.
Import ListNotations.
Open Scope Z_scope.

(** Tree j votes for the smallest class drawn for it, whatever the features; the forest answers the class with the most of these votes. *)
Theorem C115_votes : forall srt pick nc nt md features responses f, sorter_ok srt -> picker_ok pick -> features <> [] -> List.length responses = List.length features ->
  f_train srt pick (new_forest nc nt md) features responses = Ok f ->
  exists ms, Forall2 (fun j m => is_minimum m (drawn pick responses j)) (seq 0 (Z.to_nat nt)) ms /\
    (forall x v, f_predict f x = Ok v -> Forall (fun m => 0 <= m < nc) ms /\ plurality nc ms v) /\
    (1 <= nc -> Forall (fun r => 0 <= r < nc) responses -> exists v, plurality nc ms v /\
      forall x, (forall y, In y features -> (List.length y <= List.length x)%nat) -> f_predict f x = Ok v).
Proof. exact trained_forest_answer. Qed.
Print Assumptions C115_votes.

(** The smallest class, when it is drawn for every tree, is the only answer. *)
Theorem C115_smallest : forall srt pick nc nt md features responses f m, sorter_ok srt -> picker_ok pick -> features <> [] -> List.length responses = List.length features ->
  f_train srt pick (new_forest nc nt md) features responses = Ok f -> 1 <= nt ->
  is_minimum m responses -> (forall j, (j < Z.to_nat nt)%nat -> In m (drawn pick responses j)) ->
  forall x v, f_predict f x = Ok v -> v = m.
Proof. exact smallest_drawn. Qed.
Print Assumptions C115_smallest.

(** Three trees on classes 0, 1, 2, 1 vote 0, 1 and 1: class 1 is answered for the sample of class 0. *)
Example C115_votes_nonvacuous : sorter_ok insertion_sort /\ picker_ok window /\ hd_error (combine ex_features ex_responses) = Some ([f32_of_Z 1; f32_of_Z 5], 0) /\
  Forall (fun r => 0 <= r < 3) ex_responses /\
  exists f, f_train insertion_sort window (new_forest 3 3 2) ex_features ex_responses = Ok f /\
  map (drawn window ex_responses) [0; 1; 2]%nat = [[0; 1; 0; 1]; [1; 2; 1; 2]; [2; 1; 2; 1]] /\ f_predict f [f32_of_Z 1; f32_of_Z 5] = Ok 1.
Proof.
  split; [exact insertion_sort_ok|]. split; [exact window_ok|]. split; [reflexivity|]. split; [repeat (constructor; [lia|]); constructor|exact window_forest].
Qed.

(** A region whose forest has been trained returns one policy for all executions that follow. *)
Theorem C115_one_answer : forall P c files os w xs r R n f e os2 w2 xs2, sorter_ok (p_sort P) ->
  run P (start_world c files) os = Ok (w, xs) ->
  (forall os1 o os2 w1 xs1, os = os1 ++ o :: os2 -> run P (start_world c files) os1 = Ok (w1, xs1) -> no_load w1 o) ->
  nth_error (w_regions w) r = Some R -> r_model R = MForest n false f e ->
  run P w os2 = Ok (w2, xs2) -> cf_single_model c = 0 -> Forall unforced os2 ->
  exists k, Forall (eq k) (answers os2 xs2 r).
Proof. exact forest_one_answer. Qed.
Print Assumptions C115_one_answer.

(** Features 1 and 2 have different fastest policies; the three trees, each trained on both, return policy 0 for both. *)
Example C115_nonvacuous : sorter_ok (p_sort forest_platform) /\ cf_single_model plain = 0 /\ Forall unforced later_calls /\
  (forall os1 o os2 w1 xs1, forest_train = os1 ++ o :: os2 -> run forest_platform (start_world plain []) os1 = Ok (w1, xs1) -> no_load w1 o) /\
  exists w xs R n f e w2 xs2,
  run forest_platform (start_world plain []) forest_train = Ok (w, xs) /\
  nth_error (w_regions w) 0 = Some R /\ r_model R = MForest n false f e /\ List.length (f_trees f) = 3%nat /\ run forest_platform w later_calls = Ok (w2, xs2) /\ answers later_calls xs2 0 = [0; 0] /\
  best_policy_for [f32_of_Z 1] (ds_to_vector (r_dataset R)) 0 /\ best_policy_for [f32_of_Z 2] (ds_to_vector (r_dataset R)) 1.
Proof.
  split; [exact insertion_sort_ok|]. split; [reflexivity|]. split; [repeat constructor|]. split; [exact forest_no_load|exact forest_run].
Qed.
