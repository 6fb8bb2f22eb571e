(** C130: trees asked about too few features. *)
From Coq Require Import ZArith Bool Ascii String List.
From Flocq Require Import BinarySingleNaN.
From Verif Require Import Model.Base Model.Float Model.DatasetM Model.TreeM Model.ForestM Model.ModelStringM Model.PolicyModelsM Model.ConfigM Model.RuntimeM
  Spec.TreeSpec Spec.RouteSpec Spec.RuntimeSpec Proofs.InsertionSortFacts Proofs.RuntimeExamples Proofs.RuntimePolicyExamples Proofs.RouteFacts Proofs.RouteExamples.
Import ListNotations.
Open Scope Z_scope.

(** C130: asking a tree is undefined exactly if its way comes to a node that names a feature the vector does not have. *)
Theorem C130_undefined : forall t x, t <> Null -> (evaluate t x = UB <-> exists u, route x t u /\ beyond x u).
Proof. exact undefined_iff. Qed.
Print Assumptions C130_undefined.

(** C130: the answer is the class of the node where the way ends. *)
Theorem C130_answers : forall t x k, t <> Null -> (evaluate t x = Ok k <-> exists u, route x t u /\ ends x u k).
Proof. exact answers_iff. Qed.
Print Assumptions C130_answers.

(** C130: one of the two always happens. *)
Theorem C130_nothing_else : forall t x, t <> Null -> evaluate t x = UB \/ exists k, evaluate t x = Ok k.
Proof. exact nothing_else. Qed.
Print Assumptions C130_nothing_else.

Example C130_routes : 
  (exists u, route [f32_of_Z 3; f32_of_Z 9] asking_tree u /\ beyond [f32_of_Z 3; f32_of_Z 9] u) /\
  (exists u, route [f32_of_Z 3; f32_of_Z 1] asking_tree u /\ ends [f32_of_Z 3; f32_of_Z 1] u 0) /\
  (exists u, route [f32_of_Z 3; f32_of_Z 9; f32_of_Z 8] asking_tree u /\ ends [f32_of_Z 3; f32_of_Z 9; f32_of_Z 8] u 1).
Proof. exact asking_routes. Qed.

(** C130: a tree trained on vectors of at most k features answers whenever it is given at least k. *)
Theorem C130_enough : forall srt t fs rs t' k x, sorter_ok srt -> dt_train srt t fs rs = Ok t' -> Forall (fun v => (length v <= k)%nat) fs -> (k <= length x)%nat ->
  exists c, dt_predict t' x = Ok c.
Proof. exact trained_enough. Qed.
Print Assumptions C130_enough.

(** C130: a forest is undefined exactly if one of its trees is, all trees before it having voted for a policy. *)
Theorem C130_forest : forall f x, 0 < f_num_classes f -> Forall (fun t => t_root t <> Null) (f_trees f) ->
  (f_predict f x = UB <-> exists before t after, f_trees f = before ++ t :: after /\
     Forall (fun s => exists c, dt_predict s x = Ok c /\ 0 <= c < f_num_classes f) before /\ exists u, route x (t_root t) u /\ beyond x u).
Proof. exact forest_undefined. Qed.
Print Assumptions C130_forest.

Example C130_vote : 0 < f_num_classes asking_forest /\ Forall (fun t => t_root t <> Null) (f_trees asking_forest) /\ f_predict asking_forest [f32_of_Z 3] = UB /\
  f_predict asking_forest [f32_of_Z 3; f32_of_Z 1] = Ok 0.
Proof. exact asking_vote. Qed.

(** C130: whatever a region was declared with, its trained tree reads past the features of the context it is asked in. *)
Theorem C130_region : forall P w r p D R C n t e u, nth_error (w_regions w) r = Some R -> r_alive R = true -> r_model R = MTree n false t e ->
  get_context w p = Ok C -> route (c_features C) (t_root t) u -> beyond (c_features C) u -> get_policy_index P w r p D = UB.
Proof. exact region_undefined. Qed.
Print Assumptions C130_region.

(** C130: a tree trained with two features is stored; a later process whose region of that name declares one feature loads it
    and asking is undefined, although it is not if that process gives two features in spite of its declaration. *)
Theorem C130_stored : exists w xs w2 ys k, run example_platform (start_world storing []) (two_features "DecisionTree,explore=RoundRobin") = Ok (w, xs) /\
  run example_platform (start_world storing (w_files w)) (one_feature "DecisionTree,load") = UB /\
  run example_platform (start_world storing (w_files w)) (both_features "DecisionTree,load") = Ok (w2, ys ++ [GotPolicy k]).
Proof. exact stored_for_two. Qed.
Print Assumptions C130_stored.

Example C130_same_process : exists w xs, run example_platform (start_world storing []) (two_features "DecisionTree,explore=RoundRobin") = Ok (w, xs) /\
  run example_platform w [start 0 50; give s0 3; ask_policy s0] = UB.
Proof. exact asked_with_one. Qed.
