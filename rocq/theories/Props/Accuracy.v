(** C144: what analyze-traces.py reports for trees that explore. *)
From Coq Require Import List ZArith Bool Ascii String Permutation.
From Flocq Require Import BinarySingleNaN.
From Verif Require Import Model.Base Model.Float Model.Decimal Model.DatasetM Model.ConfigM Model.RuntimeM Model.CreateDatasetM Model.AnalyzeM Model.WriteOptM Model.AccuracyM
  Spec.DatasetSpec Spec.RuntimeSpec Spec.CreateDatasetSpec Spec.AnalyzeSpec Spec.WriteOptSpec Spec.AccuracySpec
  Proofs.RuntimeExamples Proofs.AnalyzeExamples Proofs.AccuracyFacts Proofs.AccuracyExamples.
From Coq Require Import List.
Import ListNotations.
Open Scope nat_scope.

(** In a run with trees, all measurements of a region are in its trace under the name DecisionTree, also those taken while the
    tree explored. *)
Theorem C144_runtime : forall P ps c files os w xs r R, cf_policy_model c = $"DecisionTree," ++ ps -> cf_trace_csv c <> 0%Z ->
  run P (start_world c files) os = Ok (w, xs) -> forallb explicit os = true -> Forall default_model os -> nth_error (w_regions w) r = Some R ->
  exists log t, records P (start_world c files) (combine os xs) log w /\ tr_model t = $"DecisionTree" /\ tr_rank t = 0%Z /\ tr_region t = r_name R /\
    tr_features t = Z.to_nat (r_num_features R) /\ tr_entries t = taken_for r log /\ r_trace R = trace_text t.
Proof. exact tree_traces. Qed.
Example C144_runtime_example : exists w xs R, run example_platform (start_world (csv_settings "DecisionTree,explore=RoundRobin") []) explored_calls = Ok (w, xs) /\
  cf_policy_model (csv_settings "DecisionTree,explore=RoundRobin") = $"DecisionTree," ++ $"explore=RoundRobin" /\ forallb explicit explored_calls = true /\ Forall default_model explored_calls /\
  nth_error (w_regions w) 0 = Some R /\
  r_trace R = $"rankid training region idx f0 policy xtime" ++ [nl] ++ $"0 DecisionTree a 0 3 0 5" ++ [nl] ++ $"0 DecisionTree a 1 3 1 4" ++ [nl].
Proof.
  destruct explored_run as (w & xs & R & E & ER & T). exists w, xs, R. split; [exact E|]. split; [reflexivity|]. split; [reflexivity|]. split; [repeat constructor|]. split; [exact ER|exact T].
Qed.
Print Assumptions C144_runtime.

(** A trace is read for a model if the name of the model and a hyphen occur in what follows "trace". *)
Theorem C144_read : forall m info region rank, Forall (fun c => c <> "*"%char) m ->
  (glob (trace_pattern m) (trace_name info region rank) = true <-> contains (m ++ $"-") ($"-" ++ info ++ $"-region-" ++ region ++ $"-rank-" ++ print_Z rank)).
Proof. exact read_iff. Qed.
(** Not when another parameter follows; but for a region whose name has it. *)
Example C144_read_example : glob (trace_pattern ($"RoundRobin")) (trace_name ($"DecisionTree,explore=RoundRobin") ($"a") 0) = true /\
  glob (trace_pattern ($"RoundRobin")) (trace_name ($"DecisionTree,explore=RoundRobin,max_depth=4") ($"a") 0) = false /\
  glob (trace_pattern ($"RoundRobin")) (trace_name ($"Static,policy=1") ($"RoundRobin-a") 0) = true.
Proof. repeat split. Qed.
Print Assumptions C144_read.

(** Reported is no time for exploring, and for the trained tree the time of all executions. *)
Theorem C144_times : forall ex num ts dir rank, Forall (fun c => c <> "*"%char) ex -> explorations ex ts dir -> ex <> $"DecisionTree" ->
  exists data l, load_traces dir [ex] = Ok data /\ both_times num data rank ex ($"DecisionTree") = Ok (zero64, fold_left add64 l zero64) /\
    Permutation l (map (fun x => num (metric_text (snd x))) (executions_on rank ts)).
Proof. exact explored_times. Qed.
Example C144_times_example : explorations ($"RoundRobin") [explored_trace] explored_dir /\ times_are explored_dir "RoundRobin" 0 9 = true.
Proof. exact (conj explored_there explored_reported). Qed.
Print Assumptions C144_times.

(** The accuracy reported for the trained tree is the share of all executions, exploring or not, that had the fastest policy. *)
Theorem C144_accuracy : forall ex rows ts dir rank s, Forall (fun c => c <> "*"%char) ex -> explorations ex ts dir ->
  arranged rows rank s -> (forall r, In r rows -> is_nan (o_time r) = false) -> decided rows rank ->
  exists data yes no, load_traces dir [ex] = Ok data /\ Permutation (yes ++ no) (executions_on rank ts) /\
    Forall (used_fastest rows rank) yes /\ Forall (fun x => ~ used_fastest rows rank x) no /\
    compute_accuracy data (drop_duplicates s) rank ($"DecisionTree") = Ok (List.length yes, List.length yes + List.length no).
Proof. exact explored_accuracy. Qed.
(** The tree was not even trained: reported is an accuracy of one in two. *)
Example C144_accuracy_example : explorations ($"RoundRobin") [explored_trace] explored_dir /\ arranged both_rows 0 both_sorted /\ decided both_rows 0 /\
  (forall r, In r both_rows -> is_nan (o_time r) = false) /\ accuracy_is explored_dir "RoundRobin" both_sorted 1 2 = true.
Proof. exact (conj explored_there (conj both_arranged (conj both_decided (conj both_numbers explored_half)))). Qed.
Print Assumptions C144_accuracy.
