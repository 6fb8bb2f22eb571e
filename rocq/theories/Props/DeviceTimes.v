(** Property C119: the times of asynchronous executions. *)
From Coq Require Import ZArith Bool Reals String List.
From Flocq Require Import Core BinarySingleNaN.
From Verif Require Import Model.Base Model.Float Model.RuntimeM Spec.RuntimeSpec Spec.TimerSpec
  Proofs.DeviceTimes Proofs.RuntimeExamples.
Import ListNotations.
Open Scope Z_scope.

(** A device timer whose device reports a number of milliseconds measures that many seconds up to one part in 2^53. *)
Theorem C119_accurate : forall ms, is_finite ms = true ->
  exists x, timer_done (Events true (Some ms)) = Ok (Some x) /\ in_seconds ms x.
Proof. exact device_accurate. Qed.
Print Assumptions C119_accurate.

(** Of two executions the one with the longer reported time is measured as the longer one. *)
Theorem C119_order : forall a b x y, is_finite a = true -> is_finite b = true -> (0 <= B2R a)%R -> (B2R a < B2R b)%R ->
  timer_done (Events true (Some a)) = Ok (Some x) -> timer_done (Events true (Some b)) = Ok (Some y) ->
  (0 <= B2R x < B2R y)%R.
Proof. exact device_longer. Qed.
Print Assumptions C119_order.

(** In every run each measurement of an asynchronous execution is a time a device reported, or the metric the client
    gave when it ended the execution. *)
Theorem C119_runs : forall P c files os w xs,
  run P (start_world c files) os = Ok (w, xs) -> forallb explicit os = true ->
  Forall (fun ms : f32 => is_finite ms = true) (reported os) ->
  exists log, records P (start_world c files) (combine os xs) log w /\
    Forall (fun e => on_heap (e_context e) = true ->
      (exists ms, In ms (reported os) /\ in_seconds ms (e_metric e)) \/
      In (OpEndMetric (e_region e) (Some (e_context e)) (e_metric e)) os) log.
Proof. exact run_accurate. Qed.
Print Assumptions C119_runs.

(** Reports one millisecond apart after more than four hours; a run with a reported time. *)
Example C119_nonvacuous :
  (exists a b : f32, is_finite a = true /\ is_finite b = true /\ B2R a = 16777215%R /\ B2R b = 16777216%R) /\
  exists w xs, run example_platform (start_world (settings "Static,policy=0" 0 0 0) []) two_async = Ok (w, xs) /\
    forallb explicit two_async = true /\ Forall (fun ms : f32 => is_finite ms = true) (reported two_async) /\
    reported two_async <> [] /\ w_executions w = 2.
Proof. exact (conj close_reports device_example). Qed.
