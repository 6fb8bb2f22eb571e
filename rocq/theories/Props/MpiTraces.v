(** Property C86: the trace of collective training. *)
From Coq Require Import ZArith Bool Ascii String List.
From Verif Require Import Model.Base Model.Float Model.DatasetM Model.ModelStringM Model.PolicyModelsM Model.ConfigM Model.RuntimeM Model.MpiM
  Spec.DatasetSpec Spec.RuntimeSpec Spec.MpiSpec Spec.GatherTrace Proofs.RuntimeExamples Proofs.MpiTrace Proofs.MpiExamples Proofs.MpiTraceExamples.
Import ListNotations.
Open Scope Z_scope.

(** ** C86 *)

(** A rank that traces writes the measurements of all ranks, its own among them, as they were before gathering, to a file
    named after the step and the rank; no other file changes. *)
Theorem C86_trace : forall M P cs os ws step ws' i w, faithful M -> exact_sizes M -> job_run M P (start_job cs) os = Ok ws ->
  Z.of_nat (List.length ws) < 2 ^ 31 -> Forall sendable ws -> sizes_fit M ws -> gather M ws step = Ok ws' ->
  nth_error ws i = Some w -> cf_trace_allgather (w_config w) <> 0 ->
  exists w', nth_error ws' i = Some w' /\ file_find (gather_file step (Z.of_nat i)) (w_files w') = Some (gathered_trace ws) /\
    forall path, path <> gather_file step (Z.of_nat i) -> file_find path (w_files w') = file_find path (w_files w).
Proof. exact gather_traced. Qed.
Print Assumptions C86_trace.

(** Gathering returns when no rank that traces would have to print a feature that does not fit in an int. *)
Theorem C86_returns : forall M P cs os ws step, faithful M -> exact_sizes M -> job_run M P (start_job cs) os = Ok ws ->
  Z.of_nat (List.length ws) < 2 ^ 31 -> Forall all_alive ws -> Forall sendable ws -> sizes_fit M ws ->
  Forall (fun w => cf_trace_allgather (w_config w) <> 0 -> ~ unprintable_measurement ws) ws -> exists ws', gather M ws step = Ok ws'.
Proof. exact gather_with_traces. Qed.
Print Assumptions C86_returns.

(** Otherwise its behaviour is undefined, wherever in the job the feature was measured. *)
Theorem C86_undefined : forall M P cs os ws step w, faithful M -> exact_sizes M -> job_run M P (start_job cs) os = Ok ws ->
  Z.of_nat (List.length ws) < 2 ^ 31 -> Forall all_alive ws -> Forall sendable ws -> sizes_fit M ws ->
  In w ws -> cf_trace_allgather (w_config w) <> 0 -> unprintable_measurement ws -> gather M ws step = UB.
Proof. exact gather_undefined. Qed.
Print Assumptions C86_undefined.

(** The first of two ranks traces 7 and -8. *)
Example C86_trace_nonvacuous : exists ws w w' r, job_run native_mpi example_platform two_ranks two_jobs = Ok ws /\
  Forall sendable ws /\ sizes_fit native_mpi ws /\ Forall all_alive ws /\ Z.of_nat (List.length ws) < 2 ^ 31 /\
  nth_error ws 0 = Some w /\ cf_trace_allgather (w_config w) <> 0 /\
  gather native_mpi ws 3 = Ok (w' :: r) /\ file_find ($"step-3-rank-0-allgather.txt") (w_files w') = Some two_text.
Proof. exact two_run. Qed.

(** The second rank measured 10^10. *)
Example C86_undefined_nonvacuous : exists ws w, job_run native_mpi example_platform two_ranks huge_job = Ok ws /\
  Forall sendable ws /\ sizes_fit native_mpi ws /\ Forall all_alive ws /\ Z.of_nat (List.length ws) < 2 ^ 31 /\
  In w ws /\ cf_trace_allgather (w_config w) <> 0 /\ unprintable_measurement ws.
Proof. exact huge_run. Qed.
