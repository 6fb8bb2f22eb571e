(** Specification of the trace of collective training (APOLLO_TRACE_ALLGATHER). *)
From Coq Require Import ZArith Bool Ascii String List.
From Flocq Require Import Core BinarySingleNaN.
From Verif Require Import Model.Base Model.Decimal Model.Float Model.DatasetM Model.RuntimeM Spec.DatasetSpec Spec.RuntimeSpec Spec.MpiSpec.
Import ListNotations.
Open Scope Z_scope.

(** The line for a measurement of a region called [name] on a rank; features without their fractions. *)
Definition gathered_line (rank : Z) (name : bytes) (e : meas) : bytes :=
  print_Z rank ++ $", " ++ name ++ $", [ " ++ List.concat (map (fun x : f32 => print_Z (Ztrunc (B2R x)) ++ $", ") (m_features e)) ++
  $"], " ++ print_Z (m_policy e) ++ $", " ++ print_float (m_metric e) ++ [nl].

(** The trace of a job: the ranks in order, for each its regions by name, for each its measurements by key. *)
Definition gathered_trace (ws : list world) : bytes :=
  $"rank, region_name, features, policy, time_avg" ++ [nl] ++
  flat_map (fun w => flat_map (fun R => flat_map (gathered_line (w_rank w) (r_name R)) (ds_to_vector (r_dataset R))) (registered w)) ws.

(** The file a rank writes it to. *)
Definition gather_file (step rank : Z) : bytes := $"step-" ++ print_Z step ++ $"-rank-" ++ print_Z rank ++ $"-allgather.txt".

(** A measurement with a feature that does not fit in an int. *)
Definition unprintable_measurement (ws : list world) : Prop :=
  exists w R e, In w ws /\ In R (registered w) /\ In e (ds_to_vector (r_dataset R)) /\ Exists unprintable (m_features e).
