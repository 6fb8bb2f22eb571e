(** C138, C139: the traces of all policies and the times analyze-traces.py reports. *)
From Coq Require Import List ZArith Bool Ascii String Reals Permutation.
From Flocq Require Import BinarySingleNaN.
From Verif Require Import Model.Base Model.Float Model.Decimal Model.DatasetM Model.ConfigM Model.RuntimeM Model.CreateDatasetM Model.AnalyzeM Model.WriteOptM
  Spec.DatasetSpec Spec.RuntimeSpec Spec.CreateDatasetSpec Spec.AnalyzeSpec Spec.WriteOptSpec
  Proofs.RuntimeExamples Proofs.AnalyzeFacts Proofs.AnalyzeRuns Proofs.AnalyzeExamples.
From Coq Require Import List.
Import ListNotations.
Open Scope Z_scope.

(** In the run for policy [p] the trace of a region that lacks the policy is named after policy 0. *)
Theorem C138_runtime : forall P p c files os w xs r R, 0 <= p <= 2147483647 -> cf_policy_model c = static_setting p -> cf_trace_csv c <> 0 ->
  run P (start_world c files) os = Ok (w, xs) -> forallb explicit os = true -> Forall default_model os -> nth_error (w_regions w) r = Some R ->
  exists log s, records P (start_world c files) (combine os xs) log w /\ named s /\ sr_setting s = p /\ sr_policies s = r_num_policies R /\
    tr_rank (sr_trace s) = 0 /\ tr_region (sr_trace s) = r_name R /\ tr_features (sr_trace s) = Z.to_nat (r_num_features R) /\
    tr_entries (sr_trace s) = taken_for r log /\ r_trace R = trace_text (sr_trace s).
Proof. exact static_traces. Qed.
Example C138_runtime_example : exists w xs R, run example_platform (start_world (csv_settings "Static,policy=3") []) static_ends = Ok (w, xs) /\
  cf_policy_model (csv_settings "Static,policy=3") = static_setting 3 /\ cf_trace_csv (csv_settings "Static,policy=3") <> 0 /\ forallb explicit static_ends = true /\ Forall default_model static_ends /\
  nth_error (w_regions w) 1 = Some R /\ r_trace R = $"rankid training region idx f0 policy xtime" ++ [nl] ++ $"0 Static,0 b 0 0 8" ++ [nl].
Proof.
  destruct static_ended as (w & xs & R & E & ER & T). exists w, xs, R. split; [exact E|]. split; [reflexivity|]. split; [discriminate|]. split; [reflexivity|]. split; [repeat constructor|]. split; [exact ER|exact T].
Qed.
Print Assumptions C138_runtime.

(** No run overwrites a trace of another. *)
Theorem C138_names : forall p p' r r' k k', 0 <= k -> 0 <= k' ->
  trace_name (static_setting p) r k = trace_name (static_setting p') r' k' -> p = p' /\ r = r' /\ k = k'.
Proof. exact names_differ. Qed.
Example C138_names_example : trace_name (static_setting 12) ($"a-rank-1") 0 = $"trace-Static,policy=12-region-a-rank-1-rank-0.csv" /\
  trace_name (static_setting 12) ($"a-rank-1") 0 <> trace_name (static_setting 1) ($"a-rank-1") 0.
Proof. split; [reflexivity|]. intros H. apply C138_names in H as (H & _); [discriminate H|apply Z.le_refl|apply Z.le_refl]. Qed.
Print Assumptions C138_names.

(** All traces of the static policies are read, each once, and nothing else. *)
Theorem C138_read : forall n ss dir, campaign n ss dir -> Permutation (matched dir (static_settings n)) (map file_of ss).
Proof. exact all_read. Qed.
Example C138_read_example : Permutation (matched two_dir (static_settings 2)) (map file_of two_runs) /\ List.length two_dir = 5%nat.
Proof. split; [exact (C138_read _ _ _ two_campaign)|reflexivity]. Qed.
Print Assumptions C138_read.

(** For policy 0 the times of its own run are added up, and those of all other runs for policies that the region does not have. *)
Theorem C138_default : forall num n ss dir rank, campaign n ss dir -> exists data l, load_traces dir (static_settings n) = Ok data /\
  execution_time num data rank ($"Static,0") = Ok (fold_left add64 l zero64) /\
  Permutation l (times_in num rank (fun s => sr_setting s =? 0) ss ++ times_in num rank (fun s => (0 <? sr_setting s) && (sr_policies s <=? sr_setting s)) ss).
Proof. exact reported_default. Qed.
Example C138_default_example : campaign 2 two_runs two_dir /\ reported_is two_dir 2 "Static,0" 25 = true /\
  List.length (times_in whole 0 (fun s => sr_setting s =? 0) two_runs) = 2%nat /\
  List.length (times_in whole 0 (fun s => (0 <? sr_setting s) && (sr_policies s <=? sr_setting s)) two_runs) = 1%nat.
Proof. split; [exact two_campaign|]. split; [exact (proj1 two_reported)|]. split; reflexivity. Qed.
Print Assumptions C138_default.

(** For any other policy the times of the regions that do not have it are left out. *)
Theorem C138_policy : forall num n ss dir rank j, campaign n ss dir -> 0 < j -> exists data l, load_traces dir (static_settings n) = Ok data /\
  execution_time num data rank ($"Static," ++ print_Z j) = Ok (fold_left add64 l zero64) /\
  Permutation l (times_in num rank (fun s => (sr_setting s =? j) && (j <? sr_policies s)) ss).
Proof. exact reported_policy. Qed.
Example C138_policy_example : campaign 2 two_runs two_dir /\ reported_is two_dir 2 "Static,1" 4 = true /\
  List.length (times_in whole 0 (fun s => sr_setting s =? 1) two_runs) = 2%nat /\
  List.length (times_in whole 0 (fun s => (sr_setting s =? 1) && (1 <? sr_policies s)) two_runs) = 1%nat.
Proof. split; [exact two_campaign|]. split; [exact (proj2 two_reported)|]. split; reflexivity. Qed.
Print Assumptions C138_policy.

(** When every region has all policies tried, what is reported for a policy are the times of its run. *)
Theorem C138_whole : forall num n ss dir rank j, campaign n ss dir -> Forall (fun s => Z.of_nat n <= sr_policies s) ss ->
  exists data l, load_traces dir (static_settings n) = Ok data /\
    execution_time num data rank ($"Static," ++ print_Z j) = Ok (fold_left add64 l zero64) /\
    Permutation l (times_in num rank (fun s => sr_setting s =? j) ss).
Proof. exact reported_whole. Qed.
Example C138_whole_example : campaign 1 one_run (map file_of one_run) /\ Forall (fun s => Z.of_nat 1 <= sr_policies s) one_run /\
  reported_is (map file_of one_run) 1 "Static,0" 15 = true.
Proof. exact one_reported. Qed.
Print Assumptions C138_whole.

(** Without rounding, the best choices take no more time than the run for a policy in which every execution was measured that
    was measured in any run. *)
Theorem C139_optimum : forall num ss rank j s, arranged (rows_of num ss) rank s ->
  (forall r, In r (rows_of num ss) -> is_finite (o_time r) = true /\ (0 <= B2R (o_time r))%R) ->
  (forall i region idx, measured_in ss rank i region idx -> measured_in ss rank j region idx) ->
  (exact_sum (map o_time (drop_duplicates s)) <= exact_sum (times_in num rank (fun t => sr_setting t =? j) ss))%R.
Proof. exact optimum_static. Qed.
Example C139_optimum_example :
  (exact_sum (map o_time (drop_duplicates two_sorted)) <= exact_sum (times_in whole 0 (fun t => sr_setting t =? 1) two_runs))%R /\
  List.length (drop_duplicates two_sorted) = 2%nat.
Proof.
  split; [|reflexivity]. apply C139_optimum; [exact two_arranged|exact two_numbers|]. intros i region idx. apply two_measured. right; reflexivity.
Qed.
Print Assumptions C139_optimum.

(** The policy reported to be best can be reported to take less time than the best choices: two regions, one with two policies
    and one with a single policy; the run for policy 1 is reported to take 4, the best choices 14. *)
Theorem C139_below_optimum : exists num n ss dir sorted data l best t, campaign n ss dir /\ load_traces dir (static_settings n) = Ok data /\
  arranged (rows_of num ss) 0 sorted /\ static_times num data 0 n = Ok l /\ best_static l = Ok (best, t) /\ lt64 t (opt_time sorted) = true.
Proof. exact below_optimum. Qed.
Example C139_below_example : best_is two_dir 2 "Static,1" = true /\ reported_is two_dir 2 "Static,1" 4 = true /\ eq64 (opt_time two_sorted) (f64_of_Z 14) = true.
Proof. split; [exact two_best|]. split; [exact (proj2 two_reported)|exact two_optimum]. Qed.
Print Assumptions C139_below_optimum.
