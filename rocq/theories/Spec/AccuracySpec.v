(** Traces of decision trees that explore, and which of their executions had the fastest policy. *)
From Coq Require Import List ZArith Bool Ascii String Permutation Reals.
From Flocq Require Import Core BinarySingleNaN.
From Verif Require Import Model.Base Model.Float Model.Decimal Model.DatasetM Model.RuntimeM Model.CreateDatasetM Model.AnalyzeM Model.WriteOptM
  Spec.DatasetSpec Spec.RuntimeSpec Spec.CreateDatasetSpec Spec.AnalyzeSpec Spec.WriteOptSpec.
Import ListNotations.

(** The file of the trace of a region in a run with a setting. *)
Definition file_under (info : bytes) (t : trace) : bytes * bytes := (trace_name info (tr_region t) (tr_rank t), trace_text t).

(** A directory with the traces of a run with trees that explore with [ex], and other files. *)
Record explorations (ex : bytes) (ts : list trace) (dir : list (bytes * bytes)) : Prop := {
  xp_some : ts <> [];
  xp_regular : Forall regular ts;
  xp_named : Forall (fun t => tr_model t = $"DecisionTree") ts;
  xp_dir : exists others, Permutation dir (map (file_under ($"DecisionTree,explore=" ++ ex)) ts ++ others) /\ Forall (fun f => ~ contains ex (fst f)) others
}.

(** All executions of a rank. *)
Definition executions_on (rank : Z) (ts : list trace) : list (bytes * entry) :=
  flat_map (fun t => if (tr_rank t =? rank)%Z then map (fun e => (tr_region t, e)) (tr_entries t) else []) ts.

(** For every execution one policy is fastest. *)
Definition decided (rows : list opt_row) (rank : Z) : Prop :=
  forall region idx p p', fastest rows rank region idx p -> fastest rows rank region idx p' -> p = p'.
(** An execution had the fastest policy. *)
Definition used_fastest (rows : list opt_row) (rank : Z) (x : bytes * entry) : Prop := fastest rows rank (fst x) (e_index (snd x)) (e_policy (snd x)).

(** [t] was measured for an execution, and nothing less. *)
Definition best_time (rows : list opt_row) (rank : Z) (region : bytes) (idx : Z) (t : f64) : Prop :=
  exists r, measured_for rows rank region idx r /\ o_time r = t /\ forall r', measured_for rows rank region idx r' -> Bleb t (o_time r') = true.
(** A time that the script can reckon with. *)
Definition moderate (t : f64) : Prop := is_finite t = true /\ (bpow radix2 (-500) <= B2R t <= bpow radix2 500)%R.
(** How far the time of an execution is from the best, as a share of the best. *)
Definition off_by (best time : f64) : R := (Rabs (B2R best - B2R time) / B2R best)%R.
