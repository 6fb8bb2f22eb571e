(** C149: the histograms of policies that analyze-traces.py prints. *)
From Coq Require Import List ZArith Bool Ascii String Permutation.
From Verif Require Import Model.Base Model.Float Model.Decimal Model.DatasetM Model.RuntimeM Model.CreateDatasetM Model.AnalyzeM Model.WriteOptM Model.AccuracyM Model.HistogramM
  Spec.DatasetSpec Spec.RuntimeSpec Spec.CreateDatasetSpec Spec.AnalyzeSpec Spec.WriteOptSpec Spec.AccuracySpec Spec.UntrainedSpec Spec.HistogramSpec
  Proofs.AnalyzeExamples Proofs.AccuracyExamples Proofs.RelaxedExamples Proofs.OptimalReportExamples Proofs.HistogramFacts Proofs.HistogramExamples.
From Coq Require Import List.
Import ListNotations.
Open Scope nat_scope.

(** With policies below the number given with --nstatic, both histograms say how often each policy is best or was used, and no execution is left out. *)
Theorem C149_tally : forall ex ts dir opt rank n, Forall (fun c => c <> "*"%char) ex -> explorations ex ts dir -> (Z.of_nat n <= 2147483647)%Z ->
  Forall (fun x => 0 <= e_policy (snd x) < Z.of_nat n)%Z (executions_on rank ts) -> Forall (fun r => 0 <= o_policy r < Z.of_nat n)%Z opt ->
  exists data h1 h2, load_traces dir [ex] = Ok data /\ histograms data opt rank ($"DecisionTree") n = Ok (h1, h2) /\
    tally n (map o_policy opt) h1 /\ list_sum (map snd h1) = List.length opt /\
    tally n (map (fun x => e_policy (snd x)) (executions_on rank ts)) h2 /\ list_sum (map snd h2) = List.length (executions_on rank ts).
Proof. exact explored_tally. Qed.
Example C149_tally_example : explorations ($"RoundRobin") [relaxed_trace] relaxed_dir /\
  Forall (fun x => 0 <= e_policy (snd x) < Z.of_nat 2)%Z (executions_on 0 [relaxed_trace]) /\ Forall (fun r => 0 <= o_policy r < Z.of_nat 2)%Z both_sorted /\
  match load_traces relaxed_dir [$"RoundRobin"] with
  | Ok data => match histograms data both_sorted 0 ($"DecisionTree") 2 with Ok ([(0%Z, 2); (1%Z, 2)], [(0%Z, 2); (1%Z, 0)]) => true | _ => false end
  | _ => false end = true.
Proof. exact (conj relaxed_there (conj relaxed_policies (conj best_policies relaxed_shown))). Qed.
Print Assumptions C149_tally.

(** The same of a run that follows a file of policies. *)
Theorem C149_optimal : forall ts dir opt rank n, explored_only ($"Optimal") ts dir -> (Z.of_nat n <= 2147483647)%Z ->
  Forall (fun x => 0 <= e_policy (snd x) < Z.of_nat n)%Z (executions_on rank ts) -> Forall (fun r => 0 <= o_policy r < Z.of_nat n)%Z opt ->
  exists data h1 h2, load_traces dir [$"Optimal"] = Ok data /\ histograms data opt rank ($"Optimal") n = Ok (h1, h2) /\
    tally n (map o_policy opt) h1 /\ list_sum (map snd h1) = List.length opt /\
    tally n (map (fun x => e_policy (snd x)) (executions_on rank ts)) h2 /\ list_sum (map snd h2) = List.length (executions_on rank ts).
Proof. exact optimal_tally. Qed.
Example C149_optimal_example : explored_only ($"Optimal") [optimal_trace] optimal_dir /\ Forall (fun x => 0 <= e_policy (snd x) < Z.of_nat 2)%Z (executions_on 0 [optimal_trace]).
Proof. exact (conj optimal_there optimal_policies). Qed.
Print Assumptions C149_optimal.

(** With more policies than that, executions with the first policy beyond are shown as of the last, and those with others are not shown. *)
Theorem C149_beyond : forall ex ts dir opt rank n, Forall (fun c => c <> "*"%char) ex -> explorations ex ts dir ->
  Forall (fun x => -2147483648 <= e_policy (snd x) <= 2147483647)%Z (executions_on rank ts) ->
  exists data h1 h2, load_traces dir [ex] = Ok data /\ histograms data opt rank ($"DecisionTree") n = Ok (h1, h2) /\ List.length h1 = n /\ List.length h2 = n /\
    (forall i p c, nth_error h1 i = Some (p, c) -> p = Z.of_nat i /\ c = (times_used (map o_policy opt) p + if (S i =? n)%nat then times_used (map o_policy opt) (Z.of_nat n) else 0)%nat) /\
    (forall i p c, nth_error h2 i = Some (p, c) -> p = Z.of_nat i /\
       c = (times_used (map (fun x => e_policy (snd x)) (executions_on rank ts)) p + if (S i =? n)%nat then times_used (map (fun x => e_policy (snd x)) (executions_on rank ts)) (Z.of_nat n) else 0)%nat).
Proof. exact explored_shown. Qed.
Example C149_beyond_example : Forall (fun x => -2147483648 <= e_policy (snd x) <= 2147483647)%Z (executions_on 0 [relaxed_trace]) /\
  histogram (arange (2 + 1)) [0; 1; 2; 3; 3]%Z = [(0%Z, 1); (1%Z, 2)].
Proof. exact (conj relaxed_small eq_refl). Qed.
Print Assumptions C149_beyond.
