(** Property C109: the times of synchronous executions. *)
From Coq Require Import ZArith Bool Reals List Sorted.
From Flocq Require Import Core BinarySingleNaN.
From Verif Require Import Model.Base Model.Float Model.DatasetM Model.PolicyModelsM Model.RuntimeM
  Spec.DatasetSpec Spec.RuntimeSpec Spec.TimerSpec Proofs.RuntimeExamples Proofs.TimerFacts.
Import ListNotations.
Open Scope R_scope.

(** A timer started and stopped on a clock that has run for less than 2^k seconds. *)
Theorem C109_time : forall k b e p q, (0 <= k <= 52)%Z -> reading k b -> reading k e -> (nanoseconds b <= nanoseconds e)%Z ->
  exists x, timer_done (timer_stop e (timer_start b (Clock p q))) = Ok (Some x) /\
    is_finite x = true /\ 0 <= B2R x /\ Rabs (B2R x - elapsed b e) <= clock_error k.
Proof. exact timer_spec. Qed.
Print Assumptions C109_time.

(** Less than a nanosecond in the first 2^22 seconds, 48 days. *)
Theorem C109_days : forall k, (0 <= k <= 22)%Z -> clock_error k < / 1000000000.
Proof. exact error_small. Qed.
Print Assumptions C109_days.

(** What a well-behaved client of a region measures, and what the data set of the region holds. *)
Theorem C109_client : forall P c files os w xs r R ph ms k, run P (start_world c files) os = Ok (w, xs) -> forallb explicit os = true ->
  followed r (combine os xs) = Some (ph, ms) -> nth_error (w_regions w) r = Some R ->
  (forall nf nm np mt info yaml init, In (OpRegion nf nm np mt info yaml init, GotRegion r) (combine os xs) -> starts_empty c info) ->
  (0 <= k <= 52)%Z -> Forall (reading k) (readings os) -> forward (readings os) ->
  Forall (fun m : meas => is_finite (m_metric m) = true /\ 0 <= B2R (m_metric m) /\
    exists b e, In b (readings os) /\ In e (readings os) /\ (nanoseconds b <= nanoseconds e)%Z /\ Rabs (B2R (m_metric m) - elapsed b e) <= clock_error k) ms /\
  Forall (fun m : meas => is_finite (m_metric m) = true /\ 0 <= B2R (m_metric m)) (ds_to_vector (r_dataset R)).
Proof. exact client_times. Qed.
Print Assumptions C109_client.

(** The other hypotheses are those of C31, with its example. *)
Example C109_nonvacuous : Forall (reading 6) (readings client) /\ forward (readings client) /\ List.length (readings client) = 7%nat.
Proof. exact client_readings. Qed.

(** The bound is no idle one: the longer of two executions can have the smaller time. *)
Theorem C109_longer_can_be_less : exists b1 e1 b2 e2, Forall (reading 25) [b1; e1; b2; e2] /\
  (nanoseconds b1 <= nanoseconds e1)%Z /\ (nanoseconds b2 <= nanoseconds e2)%Z /\ elapsed b1 e1 < elapsed b2 e2 /\
  exists x y, timer_done (timer_stop e1 (timer_start b1 (Clock None None))) = Ok (Some x) /\
    timer_done (timer_stop e2 (timer_start b2 (Clock None None))) = Ok (Some y) /\ B2R y < B2R x.
Proof. exact longer_can_be_less. Qed.
Print Assumptions C109_longer_can_be_less.
