(** What the runs of run-exhaustive.py leave behind, and the time a policy took. *)
From Coq Require Import List ZArith Bool Ascii String Reals Permutation.
From Flocq Require Import BinarySingleNaN.
From Verif Require Import Model.Base Model.Float Model.Decimal Model.RuntimeM Model.CreateDatasetM Model.AnalyzeM Model.WriteOptM
  Spec.DatasetSpec Spec.RuntimeSpec Spec.CreateDatasetSpec.
Import ListNotations.

(** The trace of a region with [sr_policies] policies in the run with the setting Static,policy=[sr_setting]. *)
Record static_trace := mkStatic { sr_setting : Z; sr_policies : Z; sr_trace : trace }.

(** The policy used: the one set if the region has it, otherwise the first. The model is named after it. *)
Definition used_policy (s : static_trace) : Z := if (sr_setting s <? sr_policies s)%Z then sr_setting s else 0%Z.
Definition named (s : static_trace) : Prop := tr_model (sr_trace s) = $"Static," ++ print_Z (used_policy s).

(** The file of such a trace. *)
Definition file_of (s : static_trace) : bytes * bytes :=
  (trace_name (static_setting (sr_setting s)) (tr_region (sr_trace s)) (tr_rank (sr_trace s)), trace_text (sr_trace s)).

Definition contains (w s : bytes) : Prop := exists a b, s = a ++ w ++ b.

(** A directory with the traces of the runs for the first [n] policies, and other files. *)
Record campaign (n : nat) (ss : list static_trace) (dir : list (bytes * bytes)) : Prop := {
  cp_some : ss <> [];
  cp_settings : Forall (fun s => 0 <= sr_setting s < Z.of_nat n /\ 0 <= tr_rank (sr_trace s))%Z ss;
  cp_named : Forall named ss;
  cp_regular : Forall (fun s => regular (sr_trace s)) ss;
  cp_once : NoDup (map (fun s => (sr_setting s, tr_region (sr_trace s), tr_rank (sr_trace s))) ss);
  cp_dir : exists others, Permutation dir (map file_of ss ++ others) /\ Forall (fun f => ~ contains ($"Static,policy=") (fst f)) others
}.

(** The times, as read, measured on a rank in the traces that meet a condition. *)
Definition times_in (num : bytes -> f64) (rank : Z) (keep : static_trace -> bool) (ss : list static_trace) : list f64 :=
  flat_map (fun s => if ((tr_rank (sr_trace s) =? rank)%Z && keep s)%bool then map (fun e => num (metric_text e)) (tr_entries (sr_trace s)) else []) ss.

(** The sum of times without rounding. *)
Definition exact_sum (l : list f64) : R := fold_right (fun x a => (B2R x + a)%R) 0%R l.

(** The rows of the traces as analyze-traces.py sorts them. *)
Definition rows_of (num : bytes -> f64) (ss : list static_trace) : list opt_row :=
  flat_map (fun s => map (fun e => mkOpt (tr_rank (sr_trace s)) (tr_region (sr_trace s)) (e_index e) (e_policy e) (num (metric_text e))) (tr_entries (sr_trace s))) ss.

(** An execution of a region on a rank was measured in the run for a policy. *)
Definition measured_in (ss : list static_trace) (rank : Z) (j : Z) (region : bytes) (idx : Z) : Prop :=
  exists s e, In s ss /\ sr_setting s = j /\ tr_rank (sr_trace s) = rank /\ tr_region (sr_trace s) = region /\ In e (tr_entries (sr_trace s)) /\ e_index e = idx.
