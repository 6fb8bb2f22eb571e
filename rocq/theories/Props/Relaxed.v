(** C145: the relaxed accuracy that analyze-traces.py reports. *)
From Coq Require Import List ZArith Bool Ascii String Permutation Reals.
From Flocq Require Import Core BinarySingleNaN.
From Verif Require Import Model.Base Model.Float Model.Decimal Model.DatasetM Model.ConfigM Model.RuntimeM Model.CreateDatasetM Model.AnalyzeM Model.WriteOptM Model.AccuracyM
  Spec.DatasetSpec Spec.RuntimeSpec Spec.CreateDatasetSpec Spec.AnalyzeSpec Spec.WriteOptSpec Spec.AccuracySpec
  Proofs.RuntimeExamples Proofs.AnalyzeExamples Proofs.AccuracyExamples Proofs.RelaxedFacts Proofs.RelaxedWhole Proofs.RelaxedExamples.
From Coq Require Import List.
Import ListNotations.
Open Scope nat_scope.

(** Counted are the executions with the fastest policy and those whose time is within ten per cent of the best, up to a
    millionth; also those that took less are not counted if they took much less. *)
Theorem C145_relaxed : forall ex num rows ts dir rank s, Forall (fun c => c <> "*"%char) ex -> explorations ex ts dir ->
  arranged rows rank s -> (forall r, In r rows -> moderate (o_time r)) -> decided rows rank ->
  NoDup (map (fun x => (fst x, e_index (snd x))) (executions_on rank ts)) ->
  Forall (fun x => is_finite (num (metric_text (snd x))) = true /\ (0 <= B2R (num (metric_text (snd x))) <= bpow radix2 500)%R) (executions_on rank ts) ->
  exists data yes near far, load_traces dir [ex] = Ok data /\ Permutation (yes ++ near ++ far) (executions_on rank ts) /\
    Forall (used_fastest rows rank) yes /\
    Forall (fun x => ~ used_fastest rows rank x /\ exists t, best_time rows rank (fst x) (e_index (snd x)) t /\ (off_by t (num (metric_text (snd x))) < 0.1000001)%R) near /\
    Forall (fun x => ~ used_fastest rows rank x /\ forall t, best_time rows rank (fst x) (e_index (snd x)) t -> (0.0999999 < off_by t (num (metric_text (snd x))))%R) far /\
    compute_relaxed num data (drop_duplicates s) rank ($"DecisionTree") = Ok (List.length yes + List.length near).
Proof. exact explored_relaxed. Qed.
(** Policy 1 takes 4. Of the executions with policy 0 the one that took 4 is counted, the one that took 3 is not. *)
Example C145_relaxed_example : explorations ($"RoundRobin") [relaxed_trace] relaxed_dir /\ arranged both_rows 0 both_sorted /\ (forall r, In r both_rows -> moderate (o_time r)) /\ decided both_rows 0 /\
  NoDup (map (fun x => (fst x, e_index (snd x))) (executions_on 0 [relaxed_trace])) /\
  Forall (fun x => is_finite (whole (metric_text (snd x))) = true /\ (0 <= B2R (whole (metric_text (snd x))) <= bpow radix2 500)%R) (executions_on 0 [relaxed_trace]) /\
  accuracy_is relaxed_dir "RoundRobin" both_sorted 0 2 && relaxed_is relaxed_dir "RoundRobin" both_sorted 1 = true /\
  off_by (f64_of_Z 4) (f64_of_Z 3) = 0.25%R /\ off_by (f64_of_Z 4) (f64_of_Z 4) = 0%R.
Proof. exact (conj relaxed_there (conj both_arranged (conj both_moderate (conj both_decided (conj relaxed_once (conj relaxed_finite (conj relaxed_half off_quarter))))))). Qed.
Print Assumptions C145_relaxed.

(** For whole times the boundary is exact. *)
Theorem C145_whole : forall b d, (0 < b < 2 ^ 40)%Z -> (0 <= d < 2 ^ 40)%Z -> within_ten (f64_of_Z b) (f64_of_Z d) = (10 * Z.abs (b - d) <=? b)%Z.
Proof. exact within_ten_whole. Qed.
Example C145_whole_example : within_ten (f64_of_Z 30) (f64_of_Z 33) = true /\ within_ten (f64_of_Z 30) (f64_of_Z 27) = true /\
  within_ten (f64_of_Z 30) (f64_of_Z 34) = false /\ within_ten (f64_of_Z 30) (f64_of_Z 26) = false.
Proof. vm_compute. repeat split. Qed.
Print Assumptions C145_whole.
