(** Properties C110 to C112: settings under which training fails or leaves measurements out. *)
From Coq Require Import ZArith Bool String List.
From Verif Require Import Model.Base Model.Float Model.DatasetM Model.PolicyModelsM Model.ConfigM Model.RuntimeM
  Spec.RuntimeSpec Spec.BlockedSpec Proofs.ModelStringFacts Proofs.RuntimeExamples Proofs.RuntimePolicyExamples Proofs.BlockedFacts Proofs.BlockedExamples.
Import ListNotations.
Open Scope Z_scope.

(** ** C110 *)

(** Without APOLLO_REGION_MODEL, Region::train on a region with measurements throws. *)
Theorem C110_region_train_throws : forall P c files os w xs, run P (start_world c files) os = Ok (w, xs) -> forallb explicit os = true ->
  forall r st force R, cf_region_model c = 0 -> nth_error (w_regions w) r = Some R -> r_alive R = true ->
  force = true \/ m_trainable (r_model R) = true -> 0 < ds_size (r_dataset R) -> step P w (OpTrain r st false force) = Throw.
Proof. exact train_throws. Qed.
Print Assumptions C110_region_train_throws.

Example C110_region_train_throws_nonvacuous : exists w xs R, run example_platform (start_world shared []) one_measurement = Ok (w, xs) /\
  nth_error (w_regions w) 0 = Some R /\ r_alive R = true /\ m_trainable (r_model R) = true /\ 0 < ds_size (r_dataset R).
Proof. exact train_throws_example. Qed.

(** A call of Region::train that returns has done nothing, for want of data or because the model is not trainable. *)
Theorem C110_region_train : forall P c files os w xs, run P (start_world c files) os = Ok (w, xs) -> forallb explicit os = true ->
  forall r st force w' y, blocked c -> step P w (OpTrain r st false force) = Ok (w', y) ->
  w' = w /\ exists R, nth_error (w_regions w) r = Some R /\ (force = true \/ m_trainable (r_model R) = true -> ds_size (r_dataset R) <= 0).
Proof. exact train_blocked. Qed.
Print Assumptions C110_region_train.

(** The same of Apollo::train with models for each region. *)
Theorem C110_train : forall P c files os w xs, run P (start_world c files) os = Ok (w, xs) -> forallb explicit os = true ->
  forall st w' y, blocked c -> cf_single_model c = 0 -> step P w (OpTrainAll st false) = Ok (w', y) ->
  w' = w /\ forall r, In r (map snd (w_registry w)) -> exists R, nth_error (w_regions w) r = Some R /\ (m_trainable (r_model R) = true -> ds_size (r_dataset R) <= 0).
Proof. exact all_blocked. Qed.
Print Assumptions C110_train.

Example C110_train_nonvacuous : exists w xs, run example_platform (start_world retraining []) one_measurement = Ok (w, xs) /\ has_data w 0 = true /\
  step example_platform w (OpTrainAll 0 false) = Throw.
Proof. exact all_throws_example. Qed.

(** The end of an execution returns only if no training is due: not at the region's period, not with the measurements
    asked for, and not at the global period unless one model is shared by all regions. *)
Theorem C110_end : forall P c files os w xs, run P (start_world c files) os = Ok (w, xs) -> forallb explicit os = true ->
  forall r now early w' y, blocked c -> step P w (OpEnd r (Some (r, Sync)) now early) = Ok (w', y) ->
  exists R R', nth_error (w_regions w) r = Some R /\ nth_error (w_regions w') r = Some R' /\
    (m_trainable (r_model R) = true -> ~ global_due (w_config w) ((w_executions w + 1) mod 2 ^ 64) ->
      ~ region_due (w_config w) (count_begins (combine os xs) r) /\ ~ enough R') /\
    (m_trainable (r_model R) = true -> global_due (w_config w) ((w_executions w + 1) mod 2 ^ 64) -> cf_single_model c = 0 ->
      ~ In r (map snd (w_registry w))).
Proof. exact end_blocked. Qed.
Print Assumptions C110_end.

(** A region that asks for two measurements: the end of the second execution throws with either setting, and trains otherwise. *)
Example C110_end_nonvacuous : Forall (fun c => blocked c /\ exists w xs,
    run example_platform (start_world c []) second_measurement = Ok (w, xs) /\ has_data w 0 = true /\ step example_platform w last_end = Throw) [shared; retraining] /\
  exists w xs, run example_platform (start_world (settings "Static,policy=0" 0 0 0) []) (second_measurement ++ [last_end]) = Ok (w, xs) /\
    region_b w 0 (fun R => negb (m_trainable (r_model R)) && (ds_size (r_dataset R) =? 2)) = true.
Proof. exact (conj end_throws end_trains_otherwise). Qed.

(** ** C111 *)

(** With one model for all regions, Apollo::train without any measurement does not return if a registered region has a tree or a forest. *)
Theorem C111_train_needs_data : forall P c files os w xs st collect r R, run P (start_world c files) os = Ok (w, xs) -> forallb explicit os = true ->
  cf_single_model c <> 0 -> (forall i Ri, nth_error (w_regions w) i = Some Ri -> ds_size (r_dataset Ri) <= 0) ->
  In r (map snd (w_registry w)) -> nth_error (w_regions w) r = Some R -> needs_data (r_model R) ->
  forall w' y, step P w (OpTrainAll st collect) <> Ok (w', y).
Proof. exact all_needs_data. Qed.
Print Assumptions C111_train_needs_data.

(** It is undefined with a tree; with models for each region the call returns. *)
Example C111_nonvacuous : (exists w xs, run example_platform (start_world shared []) [make "r" 2 0 "DecisionTree,explore=RoundRobin"] = Ok (w, xs) /\
    region_b w 0 (fun R => match r_dataset R with [] => match r_model R with MTree _ _ _ _ => true | _ => false end | _ => false end) = true /\
    step example_platform w (OpTrainAll 0 true) = UB) /\
  (exists w xs, run example_platform (start_world (settings "Static,policy=0" 0 0 0) [])
    [make "r" 2 0 "DecisionTree,explore=RoundRobin"; OpTrainAll 0 true] = Ok (w, xs) /\ trainable_b w 0 = true).
Proof. exact (conj no_data_undefined no_data_otherwise). Qed.

(** ** C112 *)

(** With one model for all regions, Apollo::train collects nothing, whatever its argument: executions that have completed stay
    pending and their measurements are left out. *)
Theorem C112_pending_left : forall P c files os w xs st collect, run P (start_world c files) os = Ok (w, xs) -> forallb explicit os = true ->
  cf_single_model c <> 0 ->
  step P w (OpTrainAll st collect) = step P w (OpTrainAll st false) /\
  forall w' y, step P w (OpTrainAll st collect) = Ok (w', y) -> forall i R, nth_error (w_regions w) i = Some R ->
    exists R', nth_error (w_regions w') i = Some R' /\ r_pending R' = r_pending R /\ r_dataset R' = r_dataset R.
Proof. exact pending_left. Qed.
Print Assumptions C112_pending_left.

(** A completed execution is left out with one model for all regions, and collected with models for each region. *)
Example C112_nonvacuous : (exists w xs, run example_platform (start_world shared []) (completed ++ [OpTrainAll 0 true]) = Ok (w, xs) /\ holds_pending w 1 1 = true) /\
  (exists w xs, run example_platform (start_world (settings "Static,policy=0" 0 0 0) []) (completed ++ [OpTrainAll 0 true]) = Ok (w, xs) /\ holds_pending w 0 2 = true).
Proof. exact completed_left. Qed.
