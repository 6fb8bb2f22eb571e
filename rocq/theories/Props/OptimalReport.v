(** C147: what analyze-traces.py reports for a run that follows its file of best policies. *)
From Coq Require Import List ZArith Bool Ascii String Permutation.
From Flocq Require Import BinarySingleNaN.
From Verif Require Import Model.Base Model.Float Model.Decimal Model.DatasetM Model.RuntimeM Model.CreateDatasetM Model.AnalyzeM Model.WriteOptM Model.AccuracyM
  Spec.DatasetSpec Spec.RuntimeSpec Spec.CreateDatasetSpec Spec.AnalyzeSpec Spec.WriteOptSpec Spec.AccuracySpec Spec.UntrainedSpec Spec.OptimalReportSpec
  Proofs.AnalyzeExamples Proofs.OptimalReportFacts Proofs.OptimalReportExamples.
From Coq Require Import List.
Import ListNotations.
Open Scope nat_scope.

(** When the best choices are those the file was made of, every execution is counted, also where several policies are fastest. *)
Theorem C147_accurate : forall num rows ts dir rank s, explored_only ($"Optimal") ts dir -> arranged rows rank s -> (forall r, In r rows -> is_nan (o_time r) = false) ->
  (forall region, exists count, forall i, (exists r, measured_for rows rank region i r) <-> (0 <= i < Z.of_nat count)%Z) ->
  Forall (fun x => file_policy (opt_file s (fst x)) (e_index (snd x)) (e_policy (snd x))) (executions_on rank ts) ->
  NoDup (map (fun x => (fst x, e_index (snd x))) (executions_on rank ts)) ->
  exists data, load_traces dir [$"Optimal"] = Ok data /\
    compute_accuracy data (drop_duplicates s) rank ($"Optimal") = Ok (List.length (executions_on rank ts), List.length (executions_on rank ts)) /\
    compute_relaxed num data (drop_duplicates s) rank ($"Optimal") = Ok (List.length (executions_on rank ts)).
Proof. exact optimal_report. Qed.
Example C147_accurate_example : explored_only ($"Optimal") [optimal_trace] optimal_dir /\ arranged tied_rows 0 tied_sorted /\ (forall r, In r tied_rows -> is_nan (o_time r) = false) /\
  (forall region, exists count, forall i, (exists r, measured_for tied_rows 0 region i r) <-> (0 <= i < Z.of_nat count)%Z) /\
  Forall (fun x => file_policy (opt_file tied_sorted (fst x)) (e_index (snd x)) (e_policy (snd x))) (executions_on 0 [optimal_trace]) /\
  NoDup (map (fun x => (fst x, e_index (snd x))) (executions_on 0 [optimal_trace])) /\ opt_file tied_sorted ($"a") = $"1,1" /\ List.length (executions_on 0 [optimal_trace]) = 2.
Proof. exact (conj optimal_there (conj tied_arranged (conj tied_numbers (conj tied_counted (conj optimal_followed (conj optimal_once (conj optimal_file eq_refl))))))). Qed.
Print Assumptions C147_accurate.

(** Sorted in another way when the report is made, the same rows can show half of the executions to be wrong. *)
Theorem C147_ties : exists rows s s' ts dir data, explored_only ($"Optimal") ts dir /\ arranged rows 0 s /\ arranged rows 0 s' /\ (forall r, In r rows -> is_nan (o_time r) = false) /\
  (forall region, exists count, forall i, (exists r, measured_for rows 0 region i r) <-> (0 <= i < Z.of_nat count)%Z) /\
  Forall (fun x => file_policy (opt_file s (fst x)) (e_index (snd x)) (e_policy (snd x))) (executions_on 0 ts) /\
  load_traces dir [$"Optimal"] = Ok data /\ compute_accuracy data (drop_duplicates s') 0 ($"Optimal") = Ok (1, 2).
Proof.
  destruct tied_split as (data & L & C).
  exact (ex_intro _ tied_rows (ex_intro _ tied_sorted (ex_intro _ tied_sorted' (ex_intro _ [optimal_trace] (ex_intro _ optimal_dir (ex_intro _ data
    (conj optimal_there (conj tied_arranged (conj tied_arranged' (conj tied_numbers (conj tied_counted (conj optimal_followed (conj L C))))))))))))).
Qed.
Example C147_ties_example : opt_file tied_sorted ($"a") = $"1,1" /\ opt_file tied_sorted' ($"a") = $"0,1".
Proof. split; reflexivity. Qed.
Print Assumptions C147_ties.
