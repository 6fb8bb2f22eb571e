(** Traces as the runtime writes them (C65) and what data sets should be made of them. *)
From Coq Require Import List ZArith Bool Ascii String.
From Flocq Require Import BinarySingleNaN.
From Verif Require Import Model.Base Model.Float Model.Decimal Model.DatasetM Model.RuntimeM Model.CreateDatasetM Spec.DatasetSpec Spec.RuntimeSpec.
Import ListNotations.

(** The trace of a region that declared [tr_features] features. *)
Record trace := mkTrace { tr_rank : Z; tr_model : bytes; tr_region : bytes; tr_features : nat; tr_entries : list entry }.
Definition trace_text (t : trace) : bytes :=
  spaced (trace_columns (tr_features t)) ++ [nl] ++ List.concat (map (trace_line (tr_rank t) (tr_model t) (tr_region t)) (tr_entries t)).

(** A name that stays one field and is not taken for a missing value. *)
Definition field (s : bytes) : Prop := Forall (fun c => c <> " "%char /\ c <> nl /\ c <> """"%char /\ c <> "013"%char) s /\ missing s = false.

(** Names are fields, and every execution has as many features as the region declared, and features and metrics are numbers. *)
Record regular (t : trace) : Prop := {
  rg_model : field (tr_model t);
  rg_region : field (tr_region t);
  rg_features : Forall (fun e => List.length (e_features e) = tr_features t /\ Forall (fun x => is_nan x = false) (e_features e) /\ is_nan (e_metric e) = false) (tr_entries t)
}.

(** A line that pandas cannot make a measurement of: it lacks features, or its metric is NaN. *)
Definition spoiled (t : trace) (e : entry) : Prop := (List.length (e_features e) < tr_features t)%nat \/ is_nan (e_metric e) = true.
(** Names are fields, no execution has more features than the region declared. *)
Record readable (t : trace) : Prop := {
  rd_model : field (tr_model t);
  rd_region : field (tr_region t);
  rd_features : Forall (fun e => List.length (e_features e) <= tr_features t)%nat (tr_entries t)
}.

(** The traces of a region. *)
Definition traces_of (r : bytes) (ts : list trace) : list trace := filter (fun t => bytes_eqb (tr_region t) r) ts.
Definition entries_of (r : bytes) (ts : list trace) : list entry := List.concat (map tr_entries (traces_of r ts)).

Definition feature_texts (e : entry) : list bytes := map (fun x : f32 => print_float x) (e_features e).
Definition policy_text (e : entry) : bytes := print_Z (e_policy e).
Definition metric_text (e : entry) : bytes := print_float (e_metric e).

(** What comes out as the features of an execution when the first trace read has [k1] features, fewer than the execution:
    policy and metric are in their place, and as many of the last features are missing. *)
Definition displaced (k1 : nat) (e : entry) : list bytes :=
  firstn (List.length (e_features e)) (firstn k1 (feature_texts e) ++ [policy_text e; metric_text e] ++ skipn k1 (feature_texts e)).

(** The files of a directory of traces: those of regions and those of all regions. *)
Inductive trace_file := OfRegion (t : trace) | OfAll (l : list global_entry).
Definition file_text (f : trace_file) : bytes := match f with OfRegion t => trace_text t | OfAll l => global_text l end.
Definition readable_file (f : trace_file) : Prop :=
  match f with OfRegion t => readable t | OfAll l => Forall (fun g => field (ge_region g) /\ field (ge_model g)) l end.
Definition of_regions (fs : list trace_file) : list trace := flat_map (fun f => match f with OfRegion t => [t] | OfAll _ => [] end) fs.

(** The regions executed in traces. *)
Definition executed (ts : list trace) (r : bytes) : Prop := exists t, In t ts /\ tr_region t = r /\ tr_entries t <> [].
(** Every region has one number of features in all its traces, and they are regular. *)
Definition orderly (ts : list trace) : Prop :=
  Forall regular ts /\ forall a b, In a ts -> In b ts -> tr_region a = tr_region b -> tr_features a = tr_features b.
