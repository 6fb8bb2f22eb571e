(** C122: min_training_data counts the distinct pairs of features and policy, not the measurements. *)
From Coq Require Import ZArith Bool String List.
From Flocq Require Import BinarySingleNaN.
From Verif Require Import Model.Base Model.Float Model.DatasetM Model.ModelStringM Model.PolicyModelsM Model.ConfigM Model.RuntimeM
  Spec.DatasetSpec Spec.RuntimeSpec Proofs.ModelStringFacts Proofs.RuntimeExamples Proofs.RuntimePolicyExamples Proofs.MinTraining Proofs.MinTrainingExamples.
Import ListNotations.
Open Scope Z_scope.

Theorem C122_trained_when : forall P c files os w xs r R ph ms nf nm np n info init mn ps,
  run P (start_world c files) os = Ok (w, xs) -> forallb explicit os = true ->
  In (OpRegion nf nm np n info [] init, GotRegion r) (combine os xs) ->
  cf_global_period c = 0 -> cf_region_period c = 0 -> cf_persistent c = 0 ->
  parse_policy_model (match info with [] => cf_policy_model c | _ => info end) = Ok (mn, ps) -> mn = $"DecisionTree" \/ mn = $"RandomForest" ->
  param_find ($"load") ps = None -> param_find ($"load-dataset") ps = None ->
  (forall st collect, ~ In (OpTrainAll st collect) os) -> (forall st collect force, ~ In (OpTrain r st collect force) os) ->
  followed r (combine os xs) = Some (ph, ms) -> nth_error (w_regions w) r = Some R ->
  (m_trainable (r_model R) = true <-> n <= 0 \/ Z.of_nat (List.length (distinct_keys (map (fun m => (m_features m, m_policy m)) ms))) < n).
Proof. exact trained_when. Qed.
Print Assumptions C122_trained_when.

Theorem C122_never : forall P c files os w xs r R ph ms nf nm np n info init mn ps F,
  run P (start_world c files) os = Ok (w, xs) -> forallb explicit os = true ->
  In (OpRegion nf nm np n info [] init, GotRegion r) (combine os xs) ->
  cf_global_period c = 0 -> cf_region_period c = 0 -> cf_persistent c = 0 ->
  parse_policy_model (match info with [] => cf_policy_model c | _ => info end) = Ok (mn, ps) -> mn = $"DecisionTree" \/ mn = $"RandomForest" ->
  param_find ($"load") ps = None -> param_find ($"load-dataset") ps = None ->
  (forall st collect, ~ In (OpTrainAll st collect) os) -> (forall st collect force, ~ In (OpTrain r st collect force) os) ->
  followed r (combine os xs) = Some (ph, ms) -> nth_error (w_regions w) r = Some R ->
  Forall (fun m => Forall (fun x : f32 => is_nan x = false) (m_features m) /\ In (m_features m) F /\ 0 <= m_policy m < np) ms -> 0 <= np -> Z.of_nat (List.length F) * np < n ->
  m_trainable (r_model R) = true.
Proof. exact never_trained. Qed.
Print Assumptions C122_never.

(** Four measurements of one features vector and two policies: 3 are never reached, 2 are. *)
Example C122_nonvacuous : few_run true 3 /\ few_run false 2 /\
  (cf_global_period plain = 0 /\ cf_region_period plain = 0 /\ cf_persistent plain = 0 /\
   exists ps, parse_policy_model ($"DecisionTree,explore=RoundRobin") = Ok ($"DecisionTree", ps) /\ param_find ($"load") ps = None /\ param_find ($"load-dataset") ps = None) /\
  (forall n, (forall st collect, ~ In (OpTrainAll st collect) (few n)) /\ (forall st collect force, ~ In (OpTrain 0 st collect force) (few n))) /\
  Z.of_nat (List.length [[f32_of_Z 3]]) * 2 < 3.
Proof. split; [exact few_never|]. split; [exact few_trained|]. split; [exact few_settings|]. split; [exact few_untrained|]. reflexivity. Qed.
