(** C120: in its first iteration the bundled test program tries every pair of feature and policy, and its measurements tell the
    right policy of every feature. C121: a policy that is always measured faster is the best policy of a data set. *)
From Coq Require Import ZArith Bool Reals List.
From Flocq Require Import Core BinarySingleNaN.
From Verif Require Import Model.Base Model.Float Model.DatasetM Model.PolicyModelsM Model.ConfigM Model.RuntimeM Model.TestM
  Spec.DatasetSpec Spec.DatasetClient Spec.PolicyModelsSpec Spec.TreeSpec Spec.ForestSpec Spec.RuntimeSpec Spec.TimerSpec
  Proofs.InsertionSortFacts Proofs.RuntimeExamples Proofs.SafeExamples Proofs.TestVerdict Proofs.Separated Proofs.TestCoverage Spec.SafeClient.
Import ListNotations.
Open Scope Z_scope.

Theorem C120_tries : forall P c files started ended D init, sorter_ok (p_sort P) -> picker_ok (p_pick P) -> plain c -> (forall j, draws_ok (D j)) ->
  cf_global_period c = 0 -> cf_region_period c = 0 ->
  let calls := test_region init :: test_iteration started ended D 0 test_features in
  exists w xs, run P (start_world c files) calls = Ok (w, xs) /\ answers calls xs 0 = map (fun j => Z.of_nat j mod 4) (seq 0 64) /\
    forall f p, 0 <= f < 4 -> 0 <= p < 4 ->
      List.length (filter (fun x => (f =? fst x) && (p =? snd x)) (combine test_features (answers calls xs 0))) = 4%nat.
Proof. exact all_pairs_tried. Qed.
Print Assumptions C120_tries.

Theorem C120_knows_and_loses : forall P c files started ended D init, sorter_ok (p_sort P) -> picker_ok (p_pick P) -> plain c -> (forall j, draws_ok (D j)) ->
  cf_global_period c = 0 -> cf_region_period c = 0 -> forall k, 0 <= k <= 52 ->
  (forall j, (j < 64)%nat -> reading k (started j) /\ reading k (ended j) /\ nanoseconds (started j) <= nanoseconds (ended j)) ->
  (forall i j, (i < 64)%nat -> (j < 64)%nat -> nth i test_features 0 = nth j test_features 0 -> nth i test_features 0 = Z.of_nat i mod 4 -> nth j test_features 0 <> Z.of_nat j mod 4 ->
     (elapsed (started i) (ended i) + 2 * clock_error k < elapsed (started j) (ended j))%R) ->
  exists w xs R w1 w2 ys, run P (start_world c files) (test_region init :: test_iteration started ended D 0 test_features) = Ok (w, xs) /\
    nth_error (w_regions w) 0 = Some R /\
    (forall f, 0 <= f < 4 -> best_policy_for [f32_of_Z f] (ds_to_vector (r_dataset R)) f) /\
    run P w [OpTrainAll 0 true] = Ok (w1, [Done]) /\ run P w1 (test_exploit started ended D) = Ok (w2, ys) /\
    matched test_features (answers (test_exploit started ended D) ys 0) = 16.
Proof. exact knows_and_loses. Qed.
Print Assumptions C120_knows_and_loses.

Example C120_nonvacuous : sorter_ok (p_sort example_platform) /\ picker_ok (p_pick example_platform) /\ plain defaults /\ draws_ok some_draws /\
  cf_global_period defaults = 0 /\ cf_region_period defaults = 0 /\
  (forall j, (j < 64)%nat -> reading 6 (clock_started j) /\ reading 6 (clock_ended j) /\ nanoseconds (clock_started j) <= nanoseconds (clock_ended j)) /\
  (forall i j, nth i test_features 0 = Z.of_nat i mod 4 -> nth j test_features 0 <> Z.of_nat j mod 4 ->
     (elapsed (clock_started i) (clock_ended i) + 2 * clock_error 6 < elapsed (clock_started j) (clock_ended j))%R).
Proof.
  split; [exact insertion_sort_ok|]. split; [exact example_picker_ok|]. split; [exact (defaults_plain _ _ _ _ defaults_ok)|]. split; [exact (proj1 (some_draws_ok fresh_view 0))|].
  split; [exact (proj1 (defaults_periods _ _ _ _ defaults_ok))|]. split; [exact (proj2 (defaults_periods _ _ _ _ defaults_ok))|]. split; [exact clock_readings|exact clock_separates].
Qed.

Theorem C121_always_faster : forall h d f p, Forall no_nan_features h -> insert_all [] h = Ok d -> Forall (fun x : f32 => is_nan x = false) f ->
  (forall q m, In m (metrics_for f q h) -> is_finite m = true /\ (B2R m = 0 \/ bpow radix2 (-1021) <= Rabs (B2R m))%R) -> metrics_for f p h <> [] ->
  (forall q m m', q <> p -> In m (metrics_for f p h) -> In m' (metrics_for f q h) -> (B2R m < B2R m')%R) ->
  best_policy_for f (ds_to_vector d) p.
Proof. exact separated_best. Qed.
Print Assumptions C121_always_faster.

Theorem C121_times : forall k b e, reading k b -> reading k e -> 0 <= k <= 52 -> nanoseconds b <= nanoseconds e ->
  let m := sub64 (clock_seconds e) (clock_seconds b) in is_finite m = true /\ (B2R m = 0 \/ bpow radix2 (-1021) <= Rabs (B2R m))%R.
Proof. exact time_halvable. Qed.
Print Assumptions C121_times.

Theorem C121_one_slow : forall h d f p q l x, Forall no_nan_features h -> insert_all [] h = Ok d -> Forall (fun x : f32 => is_nan x = false) f ->
  (forall r m, In m (metrics_for f r h) -> (is_finite m = true /\ (B2R m = 0 \/ bpow radix2 (-1021) <= Rabs (B2R m))%R) /\ (0 <= B2R m)%R) ->
  metrics_for f p h = l ++ [x] -> metrics_for f q h <> [] -> (forall m, In m (metrics_for f q h) -> (B2R m < B2R x / 2)%R) ->
  ~ best_policy_for f (ds_to_vector d) p.
Proof. exact one_slow. Qed.
Print Assumptions C121_one_slow.

Example C121_nonvacuous : exists d, insert_all [] fast_history = Ok d /\ Forall no_nan_features fast_history /\
  (forall q m, In m (metrics_for [f32_of_Z 1] q fast_history) -> is_finite m = true /\ (B2R m = 0 \/ bpow radix2 (-1021) <= Rabs (B2R m))%R) /\
  metrics_for [f32_of_Z 1] 0 fast_history <> [] /\
  (forall q m m', q <> 0 -> In m (metrics_for [f32_of_Z 1] 0 fast_history) -> In m' (metrics_for [f32_of_Z 1] q fast_history) -> (B2R m < B2R m')%R).
Proof. exact fast_example. Qed.

Example C121_slow_nonvacuous : exists d l x, insert_all [] slow_history = Ok d /\ Forall no_nan_features slow_history /\
  (forall r m, In m (metrics_for [f32_of_Z 1] r slow_history) -> (is_finite m = true /\ (B2R m = 0 \/ bpow radix2 (-1021) <= Rabs (B2R m))%R) /\ (0 <= B2R m)%R) /\
  metrics_for [f32_of_Z 1] 0 slow_history = l ++ [x] /\ List.length l = 3%nat /\ metrics_for [f32_of_Z 1] 1 slow_history <> [] /\
  (forall m, In m (metrics_for [f32_of_Z 1] 1 slow_history) -> (B2R m < B2R x / 2)%R) /\ (forall m, In m l -> B2R m = 1%R).
Proof. exact slow_example. Qed.
