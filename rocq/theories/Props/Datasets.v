(** Properties C01-C06: measurement datasets in memory. *)
From Coq Require Import List ZArith Bool Sorted Reals.
From Flocq Require Import Core BinarySingleNaN.
From Verif Require Import Model.Base Model.Float Model.DatasetM Spec.DatasetSpec Spec.DatasetClient
  Proofs.DatasetFacts Proofs.DatasetProps Proofs.DatasetExamples Proofs.DatasetDefects.
Import ListNotations.
Open Scope Z_scope.

Theorem C01_insert_is_moving_average : forall h,
  Forall no_nan_features h ->
  exists d, insert_all [] h = Ok d /\
    forall f p, Forall (fun x : f32 => is_nan x = false) f ->
      recorded f p (ds_to_vector d) = moving_average (metrics_for f p h).
Proof. exact insert_all_history. Qed.
Print Assumptions C01_insert_is_moving_average.

Example C01_nonvacuous :
  let h := [ex_m 1 0 8; ex_m 2 0 4; ex_m 1 0 4; ([B754_zero true], 1, f64_of_Z 2);
            ([B754_zero false], 1, f64_of_Z 4); ex_m 1 0 2] in
  Forall no_nan_features h /\
  (exists d, insert_all [] h = Ok d /\
     option_map B2SF (recorded [f32_of_Z 1] 0 (ds_to_vector d)) = Some (B2SF (f64_of_Z 4)) /\
     option_map B2SF (recorded [B754_zero false] 1 (ds_to_vector d)) = Some (B2SF (f64_of_Z 3)) /\
     recorded [f32_of_Z 1] 1 (ds_to_vector d) = None).
Proof.
  cbv zeta. split; [repeat constructor|]. eexists. split; [reflexivity|]. vm_compute. auto.
Qed.

Theorem C02_one_sorted_entry_per_key : forall d ks,
  reachable d ks ->
  StronglySorted meas_before (ds_to_vector d) /\
  ds_size d = Z.of_nat (length (ds_to_vector d)) /\
  ds_size d = Z.of_nat (length (distinct_keys ks)) /\
  (forall f p, Forall (fun x : f32 => is_nan x = false) f ->
     (exists m, recorded f p (ds_to_vector d) = Some m) <->
     existsb (fun k => same_features f (fst k) && (p =? snd k))%bool ks = true).
Proof. exact listing_sorted_distinct. Qed.
Print Assumptions C02_one_sorted_entry_per_key.

Example C02_nonvacuous : exists d ks, reachable d ks /\ ds_size d = 2 /\ length ks = 3%nat.
Proof.
  eexists. exists ([([f32_of_Z 2], 0)] ++ ([([f32_of_Z 2], 0)] ++ [([f32_of_Z 1], 7)])). split.
  - eapply reach_merge.
    + apply (reach_insert [] [] (ex_m 2 0 5)); [apply reach_empty|repeat constructor|reflexivity].
    + eapply (reach_insert _ [([f32_of_Z 2], 0)] (ex_m 1 7 5)).
      * apply (reach_insert [] [] (ex_m 2 0 9)); [apply reach_empty|repeat constructor|reflexivity].
      * repeat constructor.
      * reflexivity.
    + reflexivity.
  - vm_compute. auto.
Qed.

Theorem C03_moving_average_in_range : forall h d f p v,
  Forall no_nan_features h -> insert_all [] h = Ok d ->
  Forall (fun x : f32 => is_nan x = false) f ->
  (forall m, In m (metrics_for f p h) ->
     is_finite m = true /\ (B2R m = 0 \/ bpow radix2 (-1021) <= Rabs (B2R m))%R) ->
  recorded f p (ds_to_vector d) = Some v ->
  is_finite v = true /\
  (exists lo, In lo (metrics_for f p h) /\ (B2R lo <= B2R v)%R) /\
  (exists hi, In hi (metrics_for f p h) /\ (B2R v <= B2R hi)%R).
Proof. exact ema_range. Qed.
Print Assumptions C03_moving_average_in_range.

Example C03_nonvacuous : exists d v, let h := [ex_m 1 0 8; ex_m 2 0 4; ex_m 1 0 4; ex_m 1 0 2] in
  Forall no_nan_features h /\ insert_all [] h = Ok d /\
  (forall m, In m (metrics_for [f32_of_Z 1] 0 h) -> is_finite m = true /\ (B2R m = 0 \/ bpow radix2 (-1021) <= Rabs (B2R m))%R) /\
  length (metrics_for [f32_of_Z 1] 0 h) = 3%nat /\ recorded [f32_of_Z 1] 0 (ds_to_vector d) = Some v.
Proof. exact averaged. Qed.

(** Without the lower bound of 2^-1021 the claim fails: inserting the smallest positive double
    twice records 0. *)
Theorem C03_unrestricted_refuted :
  exists h d v m, Forall no_nan_features h /\ insert_all [] h = Ok d /\
    (forall x, In x (metrics_for [] 0 h) -> x = m) /\
    recorded [] 0 (ds_to_vector d) = Some v /\ Bltb v m = true /\ Bltb zero64 m = true.
Proof. exact unrestricted_order_refuted. Qed.
Print Assumptions C03_unrestricted_refuted.

Theorem C04_best_policy_minimises : forall d ks fs ps,
  reachable d ks ->
  (forall f p m, In (f, p, m) (ds_to_vector d) -> is_nan m = false) ->
  exists best,
    ds_find_min d fs ps = (fs ++ map fst best, ps ++ map (fun b => fst (snd b)) best, best) /\
    StronglySorted features_before (map fst best) /\
    (forall f p m, In (f, p, m) (ds_to_vector d) -> existsb (same_features f) (map fst best) = true) /\
    (forall f p m, In (f, (p, m)) best ->
       (exists f', In (f', p, m) (ds_to_vector d) /\ same_features f f' = true) /\
       forall f' p' m', In (f', p', m') (ds_to_vector d) -> same_features f f' = true ->
         Bleb m m' = true /\ (Beqb m m' = true -> p <= p')).
Proof. exact find_min_reachable. Qed.
Print Assumptions C04_best_policy_minimises.

Example C04_nonvacuous :
  exists d, insert_all [] [ex_m 1 0 8; ex_m 1 2 4; ex_m 1 1 4; ex_m 5 3 1] = Ok d /\
    map (fun b => fst (snd b)) (snd (ds_find_min d [] [])) = [1; 3].
Proof. eexists. split; [reflexivity|]. vm_compute. reflexivity. Qed.

Theorem C05_nan_metric_hides_better_policy :
  exists h d, Forall no_nan_features h /\ insert_all [] h = Ok d /\
    recorded [] 1 (ds_to_vector d) = Some one64 /\
    recorded [] 0 (ds_to_vector d) = Some B754_nan /\
    map (fun b => fst (snd b)) (snd (ds_find_min d [] [])) = [0].
Proof. exact nan_metric_hides_better_policy. Qed.
Print Assumptions C05_nan_metric_hides_better_policy.

Theorem C06_merge : forall d ks s ks',
  reachable d ks -> reachable s ks' ->
  exists d', ds_merge d s = Ok d' /\
    forall f p, Forall (fun x : f32 => is_nan x = false) f ->
      recorded f p (ds_to_vector d') =
      match recorded f p (ds_to_vector d), recorded f p (ds_to_vector s) with
      | Some a, Some b => Some (mean2 a b)
      | Some a, None => Some a
      | None, Some b => Some b
      | None, None => None
      end.
Proof. exact merge_reachable. Qed.
Print Assumptions C06_merge.

Theorem C06_merge_self : forall d ks,
  reachable d ks ->
  (forall f p m, In (f, p, m) (ds_to_vector d) ->
     is_finite m = true /\ (B2R m = 0 \/ bpow radix2 (-1021) <= Rabs (B2R m))%R) ->
  ds_merge d d = Ok d.
Proof. exact merge_self. Qed.
Print Assumptions C06_merge_self.

Example C06_nonvacuous : exists d ks s ks', reachable d ks /\ reachable s ks' /\ ds_size d = 2 /\ ds_size s = 2 /\
  recorded [f32_of_Z 1] 0 (ds_to_vector d) <> None /\ recorded [f32_of_Z 1] 0 (ds_to_vector s) <> None /\
  recorded [f32_of_Z 2] 1 (ds_to_vector d) <> None /\ recorded [f32_of_Z 2] 1 (ds_to_vector s) = None /\
  (forall f p m, In (f, p, m) (ds_to_vector d) -> is_finite m = true /\ (B2R m = 0 \/ bpow radix2 (-1021) <= Rabs (B2R m))%R).
Proof. exact to_merge. Qed.
