(** Concrete tables for Props/Histogram.v. *)
From Coq Require Import List ZArith Bool Ascii String Lia Permutation.
From Verif Require Import Model.Base Model.Float Model.Decimal Model.DatasetM Model.RuntimeM Model.CreateDatasetM Model.AnalyzeM Model.WriteOptM Model.AccuracyM Model.HistogramM
  Spec.DatasetSpec Spec.RuntimeSpec Spec.CreateDatasetSpec Spec.AnalyzeSpec Spec.WriteOptSpec Spec.AccuracySpec Spec.UntrainedSpec Spec.HistogramSpec
  Proofs.AnalyzeExamples Proofs.AccuracyExamples Proofs.RelaxedExamples Proofs.OptimalReportExamples.
From Coq Require Import List.
Import ListNotations.
Local Open Scope Z_scope.

Lemma relaxed_policies : Forall (fun x => 0 <= e_policy (snd x) < Z.of_nat 2) (executions_on 0 [relaxed_trace]).
Proof. change (executions_on 0 [relaxed_trace]) with [($"a", took 0 0 4); ($"a", took 1 0 3)]. apply Forall_cons; [cbn; lia|]. apply Forall_cons; [cbn; lia|]. apply Forall_nil. Qed.
Lemma relaxed_small : Forall (fun x => -2147483648 <= e_policy (snd x) <= 2147483647) (executions_on 0 [relaxed_trace]).
Proof. apply (Forall_impl _ (P := fun x => 0 <= e_policy (snd x) < Z.of_nat 2)); [|exact relaxed_policies]. intros x H. lia. Qed.
Lemma best_policies : Forall (fun r => 0 <= o_policy r < Z.of_nat 2) both_sorted.
Proof. unfold both_sorted. repeat (apply Forall_cons; [cbn; lia|]). apply Forall_nil. Qed.
Lemma optimal_policies : Forall (fun x => 0 <= e_policy (snd x) < Z.of_nat 2) (executions_on 0 [optimal_trace]).
Proof. change (executions_on 0 [optimal_trace]) with [($"a", took 0 1 4); ($"a", took 1 1 4)]. apply Forall_cons; [cbn; lia|]. apply Forall_cons; [cbn; lia|]. apply Forall_nil. Qed.
Lemma relaxed_shown : match load_traces relaxed_dir [$"RoundRobin"] with
  | Ok data => match histograms data both_sorted 0 ($"DecisionTree") 2 with Ok ([(0, 2%nat); (1, 2%nat)], [(0, 2%nat); (1, 0%nat)]) => true | _ => false end
  | _ => false end = true.
Proof. vm_compute. reflexivity. Qed.
