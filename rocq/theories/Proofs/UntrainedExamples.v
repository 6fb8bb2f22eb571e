(** A run with RoundRobin and one with a loaded tree, and what is reported for their traces. *)
From Coq Require Import List ZArith Bool Ascii String Lia Permutation.
From Flocq Require Import BinarySingleNaN.
From Verif Require Import Model.Base Model.Float Model.Decimal Model.DatasetM Model.ConfigM Model.RuntimeM Model.CreateDatasetM Model.AnalyzeM Model.WriteOptM Model.AccuracyM
  Spec.DatasetSpec Spec.RuntimeSpec Spec.CreateDatasetSpec Spec.AnalyzeSpec Spec.WriteOptSpec Spec.AccuracySpec Spec.UntrainedSpec
  Proofs.RuntimeExamples Proofs.AnalyzeExamples Proofs.AccuracyExamples Proofs.RelaxedExamples Proofs.UntrainedFacts.
From Coq Require Import List.
Import ListNotations.
Local Open Scope Z_scope.

Definition rounds_text : bytes :=
  $"rankid training region idx f0 policy xtime" ++ [nl] ++ $"0 RoundRobin a 0 3 0 5" ++ [nl] ++ $"0 RoundRobin a 1 3 1 4" ++ [nl].
Lemma rounds_run : exists w xs R, run example_platform (start_world (csv_settings "RoundRobin") []) explored_calls = Ok (w, xs) /\
  nth_error (w_regions w) 0 = Some R /\ r_trace R = rounds_text.
Proof.
  destruct (run_holds example_platform (start_world (csv_settings "RoundRobin") []) explored_calls
    (fun s => match nth_error (w_regions (fst s)) 0 with Some R => bytes_eqb (r_trace R) rounds_text | None => false end)) as (w & xs & E & H); [vm_compute; reflexivity|].
  cbn [fst] in H. destruct (nth_error (w_regions w) 0) as [R|] eqn:ER; [|discriminate H]. exists w, xs, R. split; [exact E|]. split; [exact ER|]. apply ModelStringFacts.bytes_eqb_eq. exact H.
Qed.

Definition rounds_trace : trace := mkTrace 0 ($"RoundRobin") ($"a") 0 [took 0 0 5; took 1 1 4].
Definition rounds_dir : list (bytes * bytes) :=
  [($"trace-Static,policy=0-region-a-rank-0.csv", $""); file_under ($"RoundRobin") rounds_trace].
Lemma rounds_there : explored_only ($"RoundRobin") [rounds_trace] rounds_dir.
Proof.
  constructor.
  - discriminate.
  - apply Forall_cons; [|apply Forall_nil]. constructor; [apply plain_field; reflexivity|apply plain_field; reflexivity|repeat constructor].
  - repeat constructor.
  - exists [($"trace-Static,policy=0-region-a-rank-0.csv", $"")]. split; [apply perm_swap|]. constructor; [|constructor]. intros H. apply contains_b in H. discriminate H.
Qed.
Lemma rounds_apart : ~ contains ($"DecisionTree") ($"RoundRobin").
Proof. intros H. apply contains_b in H. discriminate H. Qed.
(** Policy 1 is fastest in both executions and had one of them; that is not reported. *)
Lemma rounds_reported : times_are rounds_dir "RoundRobin" 9 0 && accuracy_is rounds_dir "RoundRobin" both_sorted 0 0 && relaxed_is rounds_dir "RoundRobin" both_sorted 0 = true.
Proof. vm_compute. reflexivity. Qed.

Definition tree_trace (region : string) : trace := mkTrace 0 ($"DecisionTree") ($region) 0 [took 0 0 5].
Lemma tree_apart : Forall (fun t => ~ contains ($"Load-") (tr_region t ++ $"-")) [tree_trace "a"; tree_trace "Loads"].
Proof. repeat constructor; intros H; apply contains_b in H; discriminate H. Qed.
