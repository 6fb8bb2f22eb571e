(** C124: a tree is not trained on vectors that do not fit the first one, as those without features. *)
From Coq Require Import ZArith Bool String List.
From Flocq Require Import BinarySingleNaN.
From Verif Require Import Model.Base Model.Float Model.DatasetM Model.TreeM Model.PolicyModelsM Model.ConfigM Model.RuntimeM Model.KokkosM
  Spec.DatasetSpec Spec.TreeSpec Spec.InsertionSort Spec.PolicyModelsSpec Spec.RuntimeSpec Spec.KokkosSpec Spec.RaggedSpec
  Proofs.InsertionSortFacts Proofs.TreeRagged Proofs.RuntimeRagged
  Proofs.RuntimeExamples Proofs.RuntimePolicyExamples Proofs.RuntimeEmptiedExamples Proofs.KokkosExamples Proofs.RaggedExamples.
Import ListNotations.
Open Scope Z_scope.

(** With two classes and a depth, training on vectors of which one does not fit the first is undefined. *)
Theorem C124_misfit : forall srt md h t features responses,
  sorter_ok srt -> trained srt md h t -> 0 < md -> length responses = length features -> misfit features ->
  (exists a b, In a responses /\ In b responses /\ a <> b) ->
  Z.of_nat (length features) * (2 * Z.of_nat (length (nodup Z.eq_dec (List.concat (map snd h) ++ responses))) + 6) < 2 ^ 22 ->
  dt_train srt t features responses = UB.
Proof. exact train_misfit. Qed.
Print Assumptions C124_misfit.

Example C124_misfit_nonvacuous : sorter_ok insertion_sort /\ trained insertion_sort 2 [] (new_dtree 2) /\ misfit short_rows /\
  length [0; 1] = length short_rows /\ ~ misfit [[f32_of_Z 1]; [f32_of_Z 3]].
Proof. split; [exact insertion_sort_ok|]. split; [constructor|]. split; [exact short_misfit|]. split; [reflexivity|exact even_rows_fit]. Qed.

(** So is training a region one of whose measurements has no features, once two features vectors have different best
    policies. *)
Theorem C124_empty_features : forall P, sorter_ok (p_sort P) -> forall c files os w xs r R np md e st force p0 m0 f g p q,
  run P (start_world c files) os = Ok (w, xs) -> forallb explicit os = true -> nth_error (w_regions w) r = Some R -> r_alive R = true ->
  r_model R = MTree np true (new_dtree md) e -> 0 < md -> cf_region_model c <> 0 -> cf_trace_best c = 0 ->
  (forall f p m, In (f, p, m) (ds_to_vector (r_dataset R)) -> is_nan m = false) ->
  In ([], p0, m0) (ds_to_vector (r_dataset R)) -> best_policy_for f (ds_to_vector (r_dataset R)) p -> best_policy_for g (ds_to_vector (r_dataset R)) q -> p <> q ->
  ds_size (r_dataset R) * (2 * Z.of_nat (length (nodup Z.eq_dec (map m_policy (ds_to_vector (r_dataset R))))) + 6) < 2 ^ 22 ->
  step P w (OpTrain r st false force) = UB.
Proof. exact region_train_empty. Qed.
Print Assumptions C124_empty_features.

(** An execution ended twice. *)
Example C124_empty_features_nonvacuous : sorter_ok (p_sort example_platform) /\ exists w xs R np e p0 m0,
  run example_platform (start_world plain []) twice_calls = Ok (w, xs) /\ forallb explicit twice_calls = true /\ nth_error (w_regions w) 0 = Some R /\ r_alive R = true /\
  r_model R = MTree np true (new_dtree 2) e /\ cf_region_model plain <> 0 /\ cf_trace_best plain = 0 /\
  (forall f p m, In (f, p, m) (ds_to_vector (r_dataset R)) -> is_nan m = false) /\ In ([], p0, m0) (ds_to_vector (r_dataset R)) /\
  best_policy_for [] (ds_to_vector (r_dataset R)) 1 /\ best_policy_for [f32_of_Z 3] (ds_to_vector (r_dataset R)) 0 /\
  ds_size (r_dataset R) * (2 * Z.of_nat (length (nodup Z.eq_dec (map m_policy (ds_to_vector (r_dataset R))))) + 6) < 2 ^ 22.
Proof. split; [exact insertion_sort_ok|exact trained_on_nothing]. Qed.

(** Kokkos contexts of one problem, one inside the other: the flush is undefined. *)
Theorem C124_nested_kokkos : exists K vss, krun example_platform example_hash (started tree_settings [] 3) nested_tree_calls = Ok (K, vss) /\
  kstep example_platform example_hash K (end_kernel 12 310) = UB.
Proof. exact nested_flush. Qed.
Print Assumptions C124_nested_kokkos.
