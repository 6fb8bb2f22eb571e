(** Property C116: when a region that finds kept measurements is created trained. *)
From Coq Require Import ZArith Bool Ascii String Lia List.
From Verif Require Import Model.Base Model.Float Model.DatasetM Model.DatasetIO Model.ModelStringM Model.PolicyModelsM Model.ConfigM Model.RuntimeM
  Spec.DatasetSpec Spec.RuntimeSpec Spec.FileNames Proofs.RuntimeExamples Proofs.RuntimeKept Proofs.RuntimeKeptExamples.
Import ListNotations.
Open Scope Z_scope.

(** A region given a learning model takes over the kept measurements. When training of all regions is due it is not trained; otherwise it is when a period for
    single regions is set or the requested number of measurements is there. *)
Theorem C116_kept : forall P c files os w xs nf nm np mt info init w' r mn ps text d rest,
  run P (start_world c files) os = Ok (w, xs) -> step P w (OpRegion nf nm np mt info [] init) = Ok (w', GotRegion r) ->
  cf_persistent c <> 0 ->
  parse_policy_model (match info with [] => cf_policy_model c | _ => info end) = Ok (mn, ps) ->
  mn = $"DecisionTree" \/ mn = $"RandomForest" -> param_find ($"load") ps = None -> param_find ($"load-dataset") ps = None ->
  file_find (data_file c (region_name nm)) (w_files w) = Some text -> ds_load [] text = Ok (d, rest) ->
  exists m R', create_model P mn nf np ps init = Ok m /\ m_trainable m = true /\ nth_error (w_regions w') r = Some R' /\ r_dataset R' = d /\
    (global_due (w_config w) (w_executions w) -> r_model R' = m) /\
    (~ global_due (w_config w) (w_executions w) -> cf_region_period c <> 0 \/ 0 < mt <= ds_size d -> trained_with P m d (r_model R')) /\
    (~ global_due (w_config w) (w_executions w) -> cf_region_period c = 0 -> ~ 0 < mt <= ds_size d -> r_model R' = m).
Proof. exact kept_data_reached. Qed.
Print Assumptions C116_kept.

(** In particular with a period for all regions, a region made before any execution is not trained, however many measurements were kept. *)
Theorem C116_first : forall P c files nf nm np mt info init w' r mn ps text d rest,
  step P (start_world c files) (OpRegion nf nm np mt info [] init) = Ok (w', GotRegion r) -> cf_persistent c <> 0 -> cf_global_period c <> 0 ->
  parse_policy_model (match info with [] => cf_policy_model c | _ => info end) = Ok (mn, ps) ->
  mn = $"DecisionTree" \/ mn = $"RandomForest" -> param_find ($"load") ps = None -> param_find ($"load-dataset") ps = None ->
  file_find (data_file c (region_name nm)) files = Some text -> ds_load [] text = Ok (d, rest) ->
  exists R', nth_error (w_regions w') r = Some R' /\ r_dataset R' = d /\ m_trainable (r_model R') = true.
Proof. exact kept_data_first. Qed.
Print Assumptions C116_first.

(** With load-dataset a region is trained with the measurements of the file, whatever number was requested. *)
Theorem C116_load_dataset : forall P w nf nm np mt info init w' r mn ps v text d rest,
  step P w (OpRegion nf nm np mt info [] init) = Ok (w', GotRegion r) -> cf_persistent (w_config w) = 0 ->
  parse_policy_model (match info with [] => cf_policy_model (w_config w) | _ => info end) = Ok (mn, ps) ->
  mn = $"DecisionTree" \/ mn = $"RandomForest" -> param_find ($"load") ps = None -> param_find ($"load-dataset") ps = Some v ->
  file_find (data_file (w_config w) (region_name nm)) (w_files w) = Some text -> ds_load [] text = Ok (d, rest) ->
  exists m R', create_model P mn nf np ps init = Ok m /\ nth_error (w_regions w') r = Some R' /\ r_dataset R' = d /\ 0 < ds_size d /\ m_train P m d = Ok (r_model R').
Proof. exact load_dataset_trains. Qed.
Print Assumptions C116_load_dataset.

(** Two measurements are kept. Asked for two the region is trained, asked for three it is not; with a period for single regions it is trained; with a period for all
    regions it is not; with load-dataset it is trained though a hundred were asked for. *)
Example C116_nonvacuous :
  created_b (settings "Static,policy=0" 0 0 1) (later_region 2) (fun R => negb (m_trainable (r_model R)) && (ds_size (r_dataset R) =? 2)) &&
  created_b (settings "Static,policy=0" 0 0 1) (later_region 3) (fun R => m_trainable (r_model R) && (ds_size (r_dataset R) =? 2)) &&
  created_b (settings "Static,policy=0" 0 5 1) (later_region 0) (fun R => negb (m_trainable (r_model R)) && (ds_size (r_dataset R) =? 2)) &&
  created_b (settings "Static,policy=0" 10 0 1) (later_region 2) (fun R => m_trainable (r_model R) && (ds_size (r_dataset R) =? 2)) &&
  created_b (settings "Static,policy=0" 0 0 0) (make "a" 2 100 "DecisionTree,explore=RoundRobin,load-dataset") (fun R => negb (m_trainable (r_model R)) && (ds_size (r_dataset R) =? 2)) = true /\
  exists text d rest, file_find (data_file (settings "Static,policy=0" 10 0 1) (region_name ($"a"))) kept_files = Some text /\ ds_load [] text = Ok (d, rest) /\ ds_size d = 2 /\
  global_due (settings "Static,policy=0" 10 0 1) (w_executions (start_world (settings "Static,policy=0" 10 0 1) kept_files)).
Proof. split; [exact kept_creations|exact kept_hypotheses]. Qed.
