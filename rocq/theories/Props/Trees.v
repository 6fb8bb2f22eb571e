(** Properties C20-C22, C24 and C58: decision trees in memory. *)
From Coq Require Import List ZArith Bool Permutation Reals.
From Flocq Require Import Core BinarySingleNaN.
From Verif Require Import Model.Base Model.Float Model.TreeM Spec.DatasetSpec Spec.TreeSpec Spec.InsertionSort
  Proofs.TreeFacts Proofs.TreeLabels Proofs.TreeThreshold Proofs.TreeTotal Proofs.TreeTraining Proofs.InsertionSortFacts Proofs.TreeExamples.
Import ListNotations.
Open Scope Z_scope.

Theorem C20_depth_and_partition : forall srt t features responses t',
  sorter_ok srt -> 0 <= t_max_depth t ->
  dt_train srt t features responses = Ok t' ->
  partition_tree (t_classes t') (combine features responses) (t_root t') /\
  tree_depth (t_root t') <= t_max_depth t /\ t_max_depth t' = t_max_depth t /\
  Permutation (combine features responses) (t_data t').
Proof. exact train_partition. Qed.
Print Assumptions C20_depth_and_partition.

Example C20_nonvacuous : exists t',
  sorter_ok insertion_sort /\
  dt_train insertion_sort (new_dtree 3) ex_features ex_responses = Ok t' /\
  tree_depth (t_root t') = 3 /\ length (labels (t_root t')) = 7%nat.
Proof.
  destruct (ok_holds (dt_train insertion_sort (new_dtree 3) ex_features ex_responses)
    (fun t => (tree_depth (t_root t) =? 3) && (length (labels (t_root t)) =? 7)%nat)%bool) as (t & E & H).
  - vm_compute. reflexivity.
  - apply andb_prop in H. destruct H as [H1 H2]. exists t. split; [exact insertion_sort_ok|]. split; [exact E|].
    split; [now apply Z.eqb_eq|now apply Nat.eqb_eq].
Qed.

Theorem C21_training_succeeds : forall srt md h t k features responses,
  sorter_ok srt -> trained srt md h t ->
  features <> [] -> length responses = length features ->
  uniform_samples k (combine features responses) -> consistent (combine features responses) ->
  Z.of_nat (length features) <= 2 ^ 24 ->
  Z.of_nat (length (nodup Z.eq_dec (List.concat (map snd h) ++ responses))) <= 1024 ->
  exists t', dt_train srt t features responses = Ok t'.
Proof. exact training_succeeds. Qed.
Print Assumptions C21_training_succeeds.

Example C21_nonvacuous :
  sorter_ok reverse_sort /\ trained reverse_sort 3 [] (new_dtree 3) /\ ex_features <> [] /\
  length ex_responses = length ex_features /\ uniform_samples 2 (combine ex_features ex_responses) /\
  consistent (combine ex_features ex_responses) /\ Z.of_nat (length ex_features) <= 2 ^ 24 /\
  Z.of_nat (length (nodup Z.eq_dec (List.concat (map snd ([] : list (list (list f32) * list Z))) ++ ex_responses))) <= 1024.
Proof.
  split; [exact reverse_sort_ok|]. split; [constructor|]. split; [discriminate|]. split; [reflexivity|].
  split; [apply uniform_b; vm_compute; reflexivity|].
  split; [apply consistent_b; vm_compute; reflexivity|split; discriminate].
Qed.

(** Without consistency the assertion does fire: two equal vectors with different classes. *)
Theorem C21_inconsistent_refuted : exists features responses,
  uniform_samples 1 (combine features responses) /\ length responses = length features /\
  forall srt, sorter_ok srt -> dt_train srt (new_dtree 2) features responses = Abort.
Proof. exact inconsistent_aborts. Qed.
Print Assumptions C21_inconsistent_refuted.

Theorem C22_constant_prediction : forall srt md h t,
  sorter_ok srt -> trained srt md h t -> h <> [] ->
  exists m, is_minimum m (List.concat (map snd h)) /\
    (forall x v, dt_predict t x = Ok v -> v = m) /\
    (forall x, (forall s, In s (t_data t) -> (length (fst s) <= length x)%nat) -> dt_predict t x = Ok m).
Proof. exact constant_prediction. Qed.
Print Assumptions C22_constant_prediction.

Example C22_nonvacuous : exists t,
  trained insertion_sort 3 [(ex_features, ex_responses)] t /\
  dt_predict t [f32_of_Z 5; f32_of_Z 2] = Ok 1.
Proof.
  destruct (ok_holds (dt_train insertion_sort (new_dtree 3) ex_features ex_responses)
    (fun t => match dt_predict t [f32_of_Z 5; f32_of_Z 2] with Ok v => v =? 1 | _ => false end)) as (t & E & H).
  - vm_compute. reflexivity.
  - exists t. split.
    + apply (trained_more insertion_sort 3 [] (new_dtree 3) ex_features ex_responses); [constructor|exact E].
    + apply ok_is. exact H.
Qed.

Theorem C24_threshold_between : forall l r : f32,
  is_finite l = true -> is_finite r = true -> is_finite (add32 l r) = true -> lt32 l r = true ->
  is_finite (midpoint l r) = true /\ le32 l (midpoint l r) = true /\ le32 (midpoint l r) r = true /\
  lt32 r (midpoint l r) = false.
Proof. exact midpoint_routes. Qed.
Print Assumptions C24_threshold_between.

(** The left value is routed left whenever some float strictly above it is at most the exact midpoint. *)
Theorem C24_threshold_separates : forall l r m : f32,
  is_finite l = true -> is_finite r = true -> is_finite (add32 l r) = true -> is_finite m = true ->
  lt32 l m = true -> (2 * B2R m <= B2R l + B2R r)%R -> (B2R l <= B2R r)%R ->
  lt32 l (midpoint l r) = true.
Proof. exact midpoint_separates. Qed.
Print Assumptions C24_threshold_separates.

Theorem C24_left_sample_misrouted : exists l r : f32,
  is_finite l = true /\ is_finite r = true /\ is_finite (add32 l r) = true /\
  lt32 l r = true /\ lt32 l (midpoint l r) = false.
Proof. exact midpoint_equals_left. Qed.
Print Assumptions C24_left_sample_misrouted.

Theorem C24_right_sample_misrouted : exists l r : f32,
  is_finite l = true /\ is_finite r = true /\
  lt32 l r = true /\ lt32 r (midpoint l r) = true.
Proof. exact midpoint_overflows. Qed.
Print Assumptions C24_right_sample_misrouted.

Example C24_nonvacuous :
  let l := f32_of_Z 1 in let r := f32_of_Z 4 in
  is_finite l = true /\ is_finite r = true /\ is_finite (add32 l r) = true /\ lt32 l r = true /\
  lt32 l (midpoint l r) = true.
Proof. vm_compute. auto. Qed.

Theorem C58_sample_order_irrelevant : forall srt srt' md h t k fs rs fs' rs',
  sorter_ok srt -> sorter_ok srt' ->
  trained srt md h t -> length rs = length fs -> length rs' = length fs' ->
  uniform_samples k (combine fs rs) -> Permutation (combine fs rs) (combine fs' rs') ->
  match dt_train srt t fs rs, dt_train srt' t fs' rs' with
  | Ok u, Ok u' => t_root u = t_root u' /\ t_classes u = t_classes u' /\
                   t_num_features u = t_num_features u' /\ Permutation (t_data u) (t_data u')
  | Throw, Throw | Abort, Abort | UB, UB | Fuel, Fuel => True
  | _, _ => False
  end.
Proof. exact training_order_irrelevant. Qed.
Print Assumptions C58_sample_order_irrelevant.

Example C58_nonvacuous :
  insertion_sort (feature_lt 0) (combine ex_features ex_responses) <>
  reverse_sort (feature_lt 0) (combine ex_features ex_responses) /\
  exists u u', dt_train insertion_sort (new_dtree 3) ex_features ex_responses = Ok u /\
    dt_train reverse_sort (new_dtree 3) ex_features ex_responses = Ok u'.
Proof.
  split.
  - intros H. apply (f_equal (map snd)) in H. vm_compute in H. discriminate.
  - destruct (ok_holds (dt_train insertion_sort (new_dtree 3) ex_features ex_responses) (fun _ => true)) as (u & E & _);
      [vm_compute; reflexivity|].
    destruct (ok_holds (dt_train reverse_sort (new_dtree 3) ex_features ex_responses) (fun _ => true)) as (u' & E' & _);
      [vm_compute; reflexivity|].
    exists u, u'. auto.
Qed.
