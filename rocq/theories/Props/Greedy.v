(** Property C98: the splits of trained trees. *)
From Coq Require Import List ZArith Bool Permutation Reals.
From Flocq Require Import Core BinarySingleNaN.
From Verif Require Import Model.Base Model.Float Model.TreeM Model.ForestM Spec.DatasetSpec Spec.TreeSpec Spec.GreedySpec Spec.InsertionSort
  Proofs.InsertionSortFacts Proofs.TreeTraining Proofs.TreeExamples Proofs.TreeGreedy Proofs.ForestGreedy Proofs.TreeGreedyExamples.
Import ListNotations.
Open Scope Z_scope.

Theorem C98_best_split : forall srt md h t k features responses t', sorter_ok srt -> trained srt md h t ->
  length responses = length features -> uniform_samples k (combine features responses) ->
  Z.of_nat (length features) <= 2 ^ 24 -> Z.of_nat (length (nodup Z.eq_dec (List.concat (map snd h) ++ responses))) <= 2 ^ 20 ->
  dt_train srt t features responses = Ok t' ->
  greedy (slack (length (nodup Z.eq_dec (List.concat (map snd h) ++ responses)))) md (combine features responses) (t_root t').
Proof. exact train_greedy. Qed.
Print Assumptions C98_best_split.

Example C98_nonvacuous : exists t', dt_train insertion_sort (new_dtree 3) ex_features ex_responses = Ok t' /\ tree_depth (t_root t') = 3 /\
  sorter_ok insertion_sort /\ trained insertion_sort 3 [] (new_dtree 3) /\ uniform_samples 2 (combine ex_features ex_responses) /\
  length (nodup Z.eq_dec ex_responses) = 3%nat.
Proof. exact a_deep_tree. Qed.

(** The numbers of the specification: dividing the classes cleanly leaves impurity 0, the next position 1/3, and the
    tolerance for two classes is far below. *)
Example C98_numbers : (impurity (first_two ++ last_two) = 1 / 2 /\ divided first_two last_two = 0 /\ divided [row 1 0] (row 2 0 :: last_two) = 1 / 3 /\ slack 2 < 1 / 100000)%R.
Proof. exact some_numbers. Qed.

(** Tree [j] of a forest is grown from the draws [j * n] to [j * n + n - 1]. *)
Theorem C98_forest : forall srt pick f features responses k f', sorter_ok srt -> length responses = length features -> uniform_samples k (combine features responses) ->
  Z.of_nat (length features) <= 2 ^ 24 -> Z.of_nat (length (nodup Z.eq_dec responses)) <= 2 ^ 20 -> f_train srt pick f features responses = Ok f' ->
  exists ts, f_trees f' = f_trees f ++ ts /\ length ts = Z.to_nat (f_num_trees f) /\
  forall j t, nth_error ts j = Some t ->
    exists l, map Some l = map (fun i => nth_error (combine features responses) (pick (length features) (j * length features + i)))%nat (seq 0 (length features)) /\
      greedy (slack (length (nodup Z.eq_dec (map snd l)))) (f_max_depth f) l (t_root t).
Proof. exact forest_greedy. Qed.
Print Assumptions C98_forest.

Example C98_forest_nonvacuous : exists f', f_train insertion_sort next_sample (new_forest 4 2 3) ex_features ex_responses = Ok f' /\ length (f_trees f') = 2%nat /\
  sorter_ok insertion_sort /\ uniform_samples 2 (combine ex_features ex_responses).
Proof. exact a_forest. Qed.
