(** C146: the traces that analyze-traces.py looks for and no run makes. *)
From Coq Require Import List ZArith Bool Ascii String Permutation.
From Flocq Require Import BinarySingleNaN.
From Verif Require Import Model.Base Model.Float Model.Decimal Model.DatasetM Model.ConfigM Model.RuntimeM Model.CreateDatasetM Model.AnalyzeM Model.WriteOptM Model.AccuracyM
  Spec.DatasetSpec Spec.RuntimeSpec Spec.CreateDatasetSpec Spec.AnalyzeSpec Spec.WriteOptSpec Spec.AccuracySpec Spec.UntrainedSpec
  Proofs.RuntimeExamples Proofs.AnalyzeExamples Proofs.AccuracyExamples Proofs.RelaxedExamples Proofs.UntrainedFacts Proofs.UntrainedExamples.
From Coq Require Import List.
Import ListNotations.
Open Scope nat_scope.

(** In the last run of run-exhaustive.py, all measurements are traced under the name RoundRobin: nothing is ever trained. *)
Theorem C146_runtime : forall P ex c files os w xs r R, ex = $"RoundRobin" \/ ex = $"Random" -> cf_policy_model c = ex -> cf_trace_csv c <> 0%Z ->
  run P (start_world c files) os = Ok (w, xs) -> forallb explicit os = true -> Forall default_model os -> nth_error (w_regions w) r = Some R ->
  exists log t, records P (start_world c files) (combine os xs) log w /\ tr_model t = ex /\ tr_rank t = 0%Z /\ tr_region t = r_name R /\
    tr_features t = Z.to_nat (r_num_features R) /\ tr_entries t = taken_for r log /\ r_trace R = trace_text t.
Proof. exact explorer_traces. Qed.
Example C146_runtime_example : exists w xs R, run example_platform (start_world (csv_settings "RoundRobin") []) explored_calls = Ok (w, xs) /\
  cf_policy_model (csv_settings "RoundRobin") = $"RoundRobin" /\ cf_trace_csv (csv_settings "RoundRobin") <> 0%Z /\ forallb explicit explored_calls = true /\ Forall default_model explored_calls /\
  nth_error (w_regions w) 0 = Some R /\
  r_trace R = $"rankid training region idx f0 policy xtime" ++ [nl] ++ $"0 RoundRobin a 0 3 0 5" ++ [nl] ++ $"0 RoundRobin a 1 3 1 4" ++ [nl].
Proof.
  destruct rounds_run as (w & xs & R & E & ER & T). exists w, xs, R. split; [exact E|]. split; [reflexivity|]. split; [discriminate|]. split; [reflexivity|]. split; [repeat constructor|].
  split; [exact ER|exact T].
Qed.
Print Assumptions C146_runtime.

(** A row is taken for one of a model if the name of the model occurs in it. *)
Theorem C146_text : forall w s, has_text w s = true <-> contains w s.
Proof. exact has_iff. Qed.
Example C146_text_example : has_text ($"Tree") ($"DecisionTree") = true /\ has_text ($"DecisionTree") ($"RoundRobin") = false /\ has_text ($"DecisionTree") ($"DecisionTre") = false.
Proof. repeat split. Qed.
Print Assumptions C146_text.

(** Of such a run, all time is reported as exploring and none for a trained tree, and its accuracy is none of none. *)
Theorem C146_exhaustive : forall ex num opt ts dir rank, Forall (fun c => c <> "*"%char) ex -> explored_only ex ts dir -> ~ contains ($"DecisionTree") ex ->
  exists data l, load_traces dir [ex] = Ok data /\ both_times num data rank ex ($"DecisionTree") = Ok (fold_left add64 l zero64, zero64) /\
    Permutation l (map (fun x => num (metric_text (snd x))) (executions_on rank ts)) /\
    compute_accuracy data opt rank ($"DecisionTree") = Ok (0, 0) /\ compute_relaxed num data opt rank ($"DecisionTree") = Ok 0.
Proof. exact untrained_report. Qed.
Example C146_exhaustive_example : explored_only ($"RoundRobin") [rounds_trace] rounds_dir /\ ~ contains ($"DecisionTree") ($"RoundRobin") /\
  times_are rounds_dir "RoundRobin" 9 0 && accuracy_is rounds_dir "RoundRobin" both_sorted 0 0 && relaxed_is rounds_dir "RoundRobin" both_sorted 0 = true.
Proof. exact (conj rounds_there (conj rounds_apart rounds_reported)). Qed.
Print Assumptions C146_exhaustive.

(** The trace of a tree that was loaded is read with --load only if its region is named so. *)
Theorem C146_loaded : forall region rank, glob (trace_pattern ($"Load")) (trace_name ($"DecisionTree,load") region rank) = true <-> contains ($"Load-") (region ++ $"-").
Proof. exact loaded_name. Qed.
Example C146_loaded_example : glob (trace_pattern ($"Load")) (trace_name ($"DecisionTree,load") ($"a") 0) = false /\ glob (trace_pattern ($"Load")) (trace_name ($"DecisionTree,load") ($"Load") 0) = true.
Proof. repeat split. Qed.
Print Assumptions C146_loaded.

(** So for the traces of loaded trees the script fails. *)
Theorem C146_throws : forall ts dir, Permutation dir (map (file_under ($"DecisionTree,load")) ts) -> Forall (fun t => ~ contains ($"Load-") (tr_region t ++ $"-")) ts ->
  load_traces dir [$"Load"] = Throw.
Proof. exact loaded_throws. Qed.
Example C146_throws_example : Forall (fun t => ~ contains ($"Load-") (tr_region t ++ $"-")) [tree_trace "a"; tree_trace "Loads"].
Proof. exact tree_apart. Qed.
Print Assumptions C146_throws.
