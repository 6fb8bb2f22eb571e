(** A run that follows a file of best policies, one of them no faster than another. *)
From Coq Require Import List ZArith Bool Ascii String Lia Permutation.
From Flocq Require Import BinarySingleNaN.
From Verif Require Import Model.Base Model.Float Model.Decimal Model.DatasetM Model.RuntimeM Model.CreateDatasetM Model.AnalyzeM Model.WriteOptM Model.AccuracyM
  Spec.DatasetSpec Spec.RuntimeSpec Spec.CreateDatasetSpec Spec.AnalyzeSpec Spec.WriteOptSpec Spec.AccuracySpec Spec.UntrainedSpec Spec.OptimalReportSpec
  Proofs.RuntimeExamples Proofs.AnalyzeExamples Proofs.AccuracyExamples.
From Coq Require Import List.
Import ListNotations.
Local Open Scope Z_scope.

(** Execution 0 takes 4 with both policies, execution 1 takes 5 with policy 0 and 4 with policy 1. *)
Definition equal0 : opt_row := mkOpt 0 ($"a") 0 0 (f64_of_Z 4).
Definition tied_rows : list opt_row := [equal0; slow 1; quick 0; quick 1].
Definition tied_sorted : list opt_row := [quick 0; equal0; quick 1; slow 1].
Definition tied_sorted' : list opt_row := [equal0; quick 0; quick 1; slow 1].
Lemma tied_arranged : arranged tied_rows 0 tied_sorted.
Proof.
  split; [|vm_compute; reflexivity]. change (of_rank 0 tied_rows) with ([equal0] ++ [slow 1; quick 0; quick 1]). unfold tied_sorted.
  change [slow 1; quick 0; quick 1] with ([slow 1] ++ [quick 0; quick 1]). rewrite (Permutation_app_comm [slow 1]). cbn [app]. apply perm_swap.
Qed.
Lemma tied_arranged' : arranged tied_rows 0 tied_sorted'.
Proof. split; [|vm_compute; reflexivity]. change (of_rank 0 tied_rows) with (equal0 :: ([slow 1] ++ [quick 0; quick 1])). unfold tied_sorted'. apply perm_skip. exact (Permutation_app_comm [slow 1] [quick 0; quick 1]). Qed.
Lemma tied_numbers r : In r tied_rows -> is_nan (o_time r) = false.
Proof. intros [<-|[<-|[<-|[<-|[]]]]]; vm_compute; reflexivity. Qed.
Lemma tied_counted region : exists count, forall i, (exists r, measured_for tied_rows 0 region i r) <-> 0 <= i < Z.of_nat count.
Proof.
  destruct (list_eq_dec ascii_dec region ($"a")) as [->|NE].
  - exists 2%nat. intros i. split.
    + intros (r & I & _ & _ & <-). destruct I as [<-|[<-|[<-|[<-|[]]]]]; cbn [equal0 slow quick o_idx]; lia.
    + intros H. assert (i = 0 \/ i = 1) as [->| ->] by lia.
      * exists equal0. split; [left; reflexivity|]. repeat split.
      * exists (slow 1). split; [right; left; reflexivity|]. repeat split.
  - exists 0%nat. intros i. split; [|lia]. intros (r & I & _ & E & _). exfalso. apply NE. rewrite <- E. destruct I as [<-|[<-|[<-|[<-|[]]]]]; reflexivity.
Qed.

Definition optimal_trace : trace := mkTrace 0 ($"Optimal") ($"a") 0 [took 0 1 4; took 1 1 4].
Definition optimal_dir : list (bytes * bytes) := [file_under ($"Optimal") optimal_trace; ($"trace-Static,policy=0-region-a-rank-0.csv", $"")].
Lemma optimal_there : explored_only ($"Optimal") [optimal_trace] optimal_dir.
Proof.
  constructor.
  - discriminate.
  - apply Forall_cons; [|apply Forall_nil]. constructor; [apply plain_field; reflexivity|apply plain_field; reflexivity|repeat constructor].
  - repeat constructor.
  - exists [($"trace-Static,policy=0-region-a-rank-0.csv", $"")]. split; [apply Permutation_refl|]. constructor; [|constructor]. intros H. apply contains_b in H. discriminate H.
Qed.
Lemma optimal_file : opt_file tied_sorted ($"a") = $"1,1".
Proof. reflexivity. Qed.
Lemma optimal_followed : Forall (fun x => file_policy (opt_file tied_sorted (fst x)) (e_index (snd x)) (e_policy (snd x))) (executions_on 0 [optimal_trace]).
Proof.
  change (executions_on 0 [optimal_trace]) with [($"a", took 0 1 4); ($"a", took 1 1 4)]. constructor; [|constructor; [|constructor]]; cbn [fst snd took e_index e_policy]; rewrite optimal_file; (split; [lia|]); exists [1; 1]; split; reflexivity.
Qed.
Lemma optimal_once : NoDup (map (fun x => (fst x, e_index (snd x))) (executions_on 0 [optimal_trace])).
Proof. repeat constructor; cbn; intuition discriminate. Qed.
Lemma tied_split : exists data, load_traces optimal_dir [$"Optimal"] = Ok data /\ compute_accuracy data (drop_duplicates tied_sorted') 0 ($"Optimal") = Ok (1%nat, 2%nat).
Proof. eexists. split; vm_compute; reflexivity. Qed.
