(** A run with a tree that explores, and what is reported for its trace. *)
From Coq Require Import List ZArith Bool Ascii String Lia Permutation.
From Flocq Require Import BinarySingleNaN.
From Verif Require Import Model.Base Model.Float Model.Decimal Model.DatasetM Model.ConfigM Model.RuntimeM Model.CreateDatasetM Model.AnalyzeM Model.WriteOptM Model.AccuracyM
  Spec.DatasetSpec Spec.RuntimeSpec Spec.CreateDatasetSpec Spec.AnalyzeSpec Spec.WriteOptSpec Spec.AccuracySpec
  Proofs.RuntimeExamples Proofs.AnalyzeExamples Proofs.AccuracyFacts.
From Coq Require Import List.
Import ListNotations.
Local Open Scope Z_scope.

(** Two executions, both exploring: the tree is never trained. *)
Definition explored_calls : list op :=
  [make "a" 2 0 ""; start 0 10; give s0 3; ask_policy s0; finish s0 15; start 0 20; give s0 3; ask_policy s0; finish s0 24].
Definition explored_text : bytes :=
  $"rankid training region idx f0 policy xtime" ++ [nl] ++ $"0 DecisionTree a 0 3 0 5" ++ [nl] ++ $"0 DecisionTree a 1 3 1 4" ++ [nl].
Lemma explored_run : exists w xs R, run example_platform (start_world (csv_settings "DecisionTree,explore=RoundRobin") []) explored_calls = Ok (w, xs) /\
  nth_error (w_regions w) 0 = Some R /\ r_trace R = explored_text.
Proof.
  destruct (run_holds example_platform (start_world (csv_settings "DecisionTree,explore=RoundRobin") []) explored_calls
    (fun s => match nth_error (w_regions (fst s)) 0 with Some R => bytes_eqb (r_trace R) explored_text | None => false end)) as (w & xs & E & H); [vm_compute; reflexivity|].
  cbn [fst] in H. destruct (nth_error (w_regions w) 0) as [R|] eqn:ER; [|discriminate H]. exists w, xs, R. split; [exact E|]. split; [exact ER|]. apply ModelStringFacts.bytes_eqb_eq. exact H.
Qed.

(** The trace of such a region, and a file of another run. *)
Definition explored_trace : trace := mkTrace 0 ($"DecisionTree") ($"a") 0 [took 0 0 5; took 1 1 4].
Definition explored_dir : list (bytes * bytes) :=
  [file_under ($"DecisionTree,explore=RoundRobin") explored_trace; ($"trace-Static,policy=0-region-a-rank-0.csv", $"")].
Lemma explored_there : explorations ($"RoundRobin") [explored_trace] explored_dir.
Proof.
  constructor.
  - discriminate.
  - apply Forall_cons; [|apply Forall_nil]. constructor; [apply plain_field; reflexivity|apply plain_field; reflexivity|repeat constructor].
  - repeat constructor.
  - exists [($"trace-Static,policy=0-region-a-rank-0.csv", $"")]. split; [apply Permutation_refl|]. constructor; [|constructor]. intros H. apply contains_b in H. discriminate H.
Qed.

Definition times_are (dir : list (bytes * bytes)) (ex : string) (a b : Z) : bool :=
  match load_traces dir [$ex] with
  | Ok data => match both_times whole data 0 ($ex) ($"DecisionTree") with Ok (x, y) => eq64 x (f64_of_Z a) && eq64 y (f64_of_Z b) | _ => false end
  | _ => false
  end.
Lemma explored_reported : times_are explored_dir "RoundRobin" 0 9 = true.
Proof. vm_compute. reflexivity. Qed.

(** Both executions take 5 with policy 0 and 4 with policy 1. *)
Definition slow (i : Z) : opt_row := mkOpt 0 ($"a") i 0 (f64_of_Z 5).
Definition quick (i : Z) : opt_row := mkOpt 0 ($"a") i 1 (f64_of_Z 4).
Definition both_rows : list opt_row := [slow 0; slow 1; quick 0; quick 1].
Definition both_sorted : list opt_row := [quick 0; quick 1; slow 0; slow 1].
Lemma both_arranged : arranged both_rows 0 both_sorted.
Proof. split; [exact (Permutation_app_comm [slow 0; slow 1] [quick 0; quick 1])|vm_compute; reflexivity]. Qed.
Lemma both_numbers r : In r both_rows -> is_nan (o_time r) = false.
Proof. intros [<-|[<-|[<-|[<-|[]]]]]; vm_compute; reflexivity. Qed.
Lemma slower i : Bleb (o_time (slow i)) (o_time (quick i)) = false.
Proof. vm_compute. reflexivity. Qed.
Lemma both_decided : decided both_rows 0.
Proof.
  assert (Q : forall region idx p, fastest both_rows 0 region idx p -> p = 1).
  { intros region idx p (r & (I & _ & B & C) & D & H). destruct I as [<-|[<-|[<-|[<-|[]]]]]; cbn [slow quick o_region o_idx o_policy] in B, C, D; subst; try reflexivity; exfalso.
    - assert (X := slower 0). rewrite H in X; [discriminate X|]. split; [right; right; left; reflexivity|]. repeat split.
    - assert (X := slower 1). rewrite H in X; [discriminate X|]. split; [right; right; right; left; reflexivity|]. repeat split. }
  intros region idx p p' A B. rewrite (Q _ _ _ A), (Q _ _ _ B). reflexivity.
Qed.
Definition accuracy_is (dir : list (bytes * bytes)) (ex : string) (sorted : list opt_row) (a b : nat) : bool :=
  match load_traces dir [$ex] with
  | Ok data => match compute_accuracy data (drop_duplicates sorted) 0 ($"DecisionTree") with Ok (x, y) => Nat.eqb x a && Nat.eqb y b | _ => false end
  | _ => false
  end.
Lemma explored_half : accuracy_is explored_dir "RoundRobin" both_sorted 1 2 = true.
Proof. vm_compute. reflexivity. Qed.
