(** C134: create-dataset.py and directories of traces, which also hold the trace of all regions. *)
From Coq Require Import List ZArith Bool Ascii String.
From Verif Require Import Model.Base Model.Float Model.Decimal Model.DatasetM Model.RuntimeM Model.CreateDatasetM Spec.DatasetSpec Spec.RuntimeSpec Spec.CreateDatasetSpec
  Proofs.CreateDatasetExamples Proofs.CreateDatasetAll Proofs.CreateDatasetAllExamples.
From Coq Require Import List.
Import ListNotations.

(** Traces of regions alone: one data set for every region executed, and no error. *)
Theorem C134_regions_only : forall first ts, orderly (first :: ts) ->
  exists names, NoDup names /\ (forall r, In r names <-> executed (first :: ts) r) /\
    create (map trace_text (first :: ts)) [] =
      (map (fun r => (r, map (fun e => (displaced (tr_features first) e, policy_text e, metric_text e)) (entries_of r (first :: ts)))) names, Ok tt).
Proof. exact clean_written. Qed.
Example C134_regions_only_example :
  create (map trace_text [wide; narrow]) [] =
    ([($"wide", [([$"5"; $"6"], $"0", $"20"); ([$"5"; $"8"], $"1", $"10")]); ($"narrow", [([$"7"], $"0", $"3"); ([$"7"], $"1", $"4")])], Ok tt) /\
  exists names, (forall r, In r names <-> executed [wide; narrow] r) /\ snd (create (map trace_text [wide; narrow]) []) = Ok tt /\
    map fst (fst (create (map trace_text [wide; narrow]) [])) = names.
Proof.
  split; [reflexivity|]. destruct (C134_regions_only wide [narrow] both_orderly') as (names & _ & B & C). exists names. split; [exact B|]. rewrite C. split; [reflexivity|].
  cbn [fst]. rewrite map_map. apply map_id.
Qed.
Print Assumptions C134_regions_only.

(** A directory whose trace of all regions is read first: no data set at all. *)
Theorem C134_global_first : forall dirs g post, g <> [] -> Forall (fun d => d <> []) dirs -> Forall (Forall readable_file) dirs -> List.concat dirs = OfAll g :: post ->
  create [] (map (map file_text) dirs) = ([], Throw).
Proof. exact first_none. Qed.
Example C134_global_first_example : create [] [[global_text one_execution; trace_text narrow]] = ([], Throw).
Proof.
  apply (C134_global_first [[OfAll one_execution; OfRegion narrow]] one_execution [OfRegion narrow]); [discriminate|exact (proj2 (no_empty _ _ (OfRegion narrow) (OfRegion narrow)))|exact first_readable|reflexivity].
Qed.
Print Assumptions C134_global_first.

(** A trace of all regions read later: the script still ends with an error, and only regions executed in a trace read before it may get a data set. *)
Theorem C134_global_dies : forall dirs first pre g post, g <> [] -> Forall (fun d => d <> []) dirs -> Forall (Forall readable_file) dirs ->
  List.concat dirs = map OfRegion (first :: pre) ++ OfAll g :: post ->
  exists written, create [] (map (map file_text) dirs) = (written, Throw) /\ forall r, In r (map fst written) -> executed (first :: pre) r.
Proof. exact global_dies. Qed.
Example C134_global_dies_example : exists written,
  create [] [[trace_text wide; global_text one_execution]; [trace_text narrow]] = (written, Throw) /\ ~ In ($"narrow") (map fst written).
Proof.
  destruct (C134_global_dies [[OfRegion wide; OfAll one_execution]; [OfRegion narrow]] wide [] one_execution [OfRegion narrow]) as (w & A & B);
    [discriminate|exact (proj1 (no_empty _ _ _ (OfRegion narrow)))|exact between_readable|reflexivity|].
  exists w. split; [exact A|]. intros I. apply B, executed_wide in I. discriminate.
Qed.
Print Assumptions C134_global_dies.

(** Exactly those get one when the traces are regular, with the same content as without the trace of all regions. *)
Theorem C134_global_before : forall dirs first pre g post, g <> [] -> Forall (fun d => d <> []) dirs -> Forall (Forall readable_file) dirs ->
  List.concat dirs = map OfRegion (first :: pre) ++ OfAll g :: post -> orderly (first :: pre ++ of_regions post) ->
  exists names, NoDup names /\ (forall r, In r names <-> executed (first :: pre) r) /\
    create [] (map (map file_text) dirs) =
      (map (fun r => (r, map (fun e => (displaced (tr_features first) e, policy_text e, metric_text e)) (entries_of r (first :: pre ++ of_regions post)))) names, Throw).
Proof. exact global_before. Qed.
Example C134_global_before_example : exists names, (forall r, In r names <-> r = $"wide") /\
  create [] [[trace_text wide; global_text one_execution]; [trace_text narrow]] =
    (map (fun r => (r, map (fun e => (displaced 2 e, policy_text e, metric_text e)) (entries_of r [wide; narrow]))) names, Throw).
Proof.
  destruct (C134_global_before [[OfRegion wide; OfAll one_execution]; [OfRegion narrow]] wide [] one_execution [OfRegion narrow]) as (names & _ & B & C);
    [discriminate|exact (proj1 (no_empty _ _ _ (OfRegion narrow)))|exact between_readable|reflexivity|exact both_orderly'|].
  exists names. split; [|exact C]. intros r. rewrite B. apply executed_wide.
Qed.
Print Assumptions C134_global_before.
