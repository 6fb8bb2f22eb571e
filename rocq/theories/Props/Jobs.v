(** Properties C104-C108: jobs whose ranks run at their own pace. *)
From Coq Require Import ZArith Bool List.
From Verif Require Import Model.Base Model.ConfigM Model.PolicyModelsM Model.RuntimeM Model.MpiM Model.JobM
  Spec.JobSpec Proofs.RuntimeExamples Proofs.JobFacts Proofs.JobCalls Proofs.JobSim Proofs.JobOrder Proofs.MpiExamples Proofs.JobExamples.
Import ListNotations.
Open Scope Z_scope.

(** ** C104 *)

(** No job goes on for ever. *)
Theorem C104_every_job_halts : forall P M (f : nat -> list rank), ~ (forall n, job_moves P M (f n) (f (S n))).
Proof. exact no_endless. Qed.
Print Assumptions C104_every_job_halts.

(** Whatever the ranks have done so far, they can still come to the one state in which every order of their steps ends. *)
Theorem C104_order_does_not_matter : forall P M J, exists J', job_halted P M J' /\
  forall J1, job_runs P M J J1 -> job_runs P M J1 J' /\ (job_halted P M J1 -> J1 = J').
Proof. exact meets_again. Qed.
Print Assumptions C104_order_does_not_matter.

(** ** C105 *)

(** A rank that measures as many executions as the period asks for, beside one that does not: no order of steps ends the
    job, and where nothing can happen any more the first waits for the second in the training after its [p]-th execution, while the second has made all its calls. *)
Theorem C105_deadlock : forall P M p plans ns i j a b J', 0 < p < 2 ^ 31 -> counts P plans ns ->
  nth_error ns i = Some a -> p <= a -> nth_error ns j = Some b -> b < p -> job_runs P M (collective_job p plans) J' ->
  ~ job_ended J' /\
  (job_halted P M J' -> exists v k rest v', nth_error J' i = Some (Waiting v p k rest) /\ nth_error J' j = Some (Ready v' [])).
Proof. intros P M p plans ns i j a b J' HP HC. exact (counts_differ P M p plans ns HP HC i j a b J'). Qed.
Print Assumptions C105_deadlock.

(** If no rank measures that many executions, the job ends. *)
Theorem C105_few : forall P M p plans ns J', 0 < p < 2 ^ 31 -> counts P plans ns -> Forall (fun n => n < p) ns ->
  job_runs P M (collective_job p plans) J' -> job_halted P M J' -> job_ended J'.
Proof. intros P M p plans ns J' HP HC. exact (counts_few P M p plans ns HP HC J'). Qed.
Print Assumptions C105_few.

(** If every rank does, all of them come to the exchange of step [p] together, in every order of steps that goes on until nothing can
    happen any more. *)
Theorem C105_many : forall P M p plans ns, 0 < p < 2 ^ 31 -> counts P plans ns -> Forall (fun n => p <= n) ns ->
  exists J1 l, job_runs P M (collective_job p plans) J1 /\ all_waiting J1 = Some l /\ Forall (fun x => snd x = p) l /\
    forall J', job_runs P M (collective_job p plans) J' -> job_halted P M J' -> job_runs P M J1 J'.
Proof. intros P M p plans ns HP HC. exact (counts_many P M p plans ns HP HC). Qed.
Print Assumptions C105_many.

(** Two ranks with three and two executions of one region; any period fits one of the theorems. *)
Example C105_nonvacuous : counts example_platform uneven [3; 2].
Proof. exact uneven_counts. Qed.

(** ** C106 *)

(** As many executions on every rank as on the others do not help: two ranks measure four executions each, the one on
    one region, the other on two, and with the period 2 the second waits for the first for ever. *)
Theorem C106_equal_counts_refuted : ~ (forall P M p plans ns J', 0 < p < 2 ^ 31 -> counts P plans ns -> (forall n m, In n ns -> In m ns -> n = m) ->
  job_runs P M (collective_job p plans) J' -> job_halted P M J' -> job_ended J' \/ exists x, In (Failed x) J').
Proof. exact equal_counts_refuted. Qed.
Print Assumptions C106_equal_counts_refuted.

Example C106_witness : counts example_platform one_or_two [4; 4] /\
  exists J', job_runs example_platform native_mpi (collective_job 2 one_or_two) J' /\ job_halted example_platform native_mpi J' /\
    (forall f, ~ In (Failed f) J') /\ exists w st k os w', nth_error J' 1 = Some (Waiting w st k os) /\ nth_error J' 0 = Some (Ready w' []).
Proof. exact (conj one_or_two_counts one_or_two_stuck). Qed.

(** ** C107 *)

(** A rank without collective training, or without a global period and without calls of Apollo::train, ends in every job
    as it ends by itself. *)
Theorem C107_rank_by_itself : forall P M J J' i w os, nth_error J i = Some (Ready w os) ->
  truthy (cf_collective (w_config w)) = false \/
    (truthy (cf_global_period (w_config w)) = false /\ forall st collect, ~ In (OpTrainAll st collect) os) ->
  job_runs P M J J' -> job_halted P M J' -> nth_error J' i = Some (end_of P w os).
Proof. intros P M J J' i w os. exact (own_run_in_job P M J J' i w os). Qed.
Print Assumptions C107_rank_by_itself.

(** With collective training, a rank whose region trains itself after two executions, beside a rank that waits for ever. *)
Example C107_nonvacuous : exists w' os', nth_error beside_waiting 0 = Some (Ready (self_training_rank) self_training_calls) /\
  truthy (cf_collective (w_config self_training_rank)) = true /\ truthy (cf_global_period (w_config self_training_rank)) = false /\
  (forall st collect, ~ In (OpTrainAll st collect) self_training_calls) /\
  end_of example_platform self_training_rank self_training_calls = Ready w' [] /\ trainable_all w' = false /\
  nth_error beside_waiting 1 = Some (Ready (fst os') (snd os')) /\ alone example_platform (fst os') (snd os') (Some 1).
Proof. exact self_training. Qed.

(** ** C108 *)

(** If the events of a job, in some order, all succeed, every order of the ranks' steps ends the job in the same worlds. *)
Theorem C108_events_decide : forall P M cs os ws J', cs <> [] -> job_run M P (start_job cs) os = Ok ws ->
  job_runs P M (new_job cs (map (fun i => calls_of i os) (seq 0 (List.length cs)))) J' -> job_halted P M J' ->
  J' = map (fun w => Ready w []) ws.
Proof. intros P M. exact (events_decide P M). Qed.
Print Assumptions C108_events_decide.

(** Three ranks that measure executions and then train together. *)
Example C108_nonvacuous : exists ws, job_run native_mpi example_platform (start_job (repeat (together, []) 3)) (three ++ [Collective 0 true]) = Ok ws.
Proof. destruct disagreement as (ws & E & _). exact (ex_intro _ ws E). Qed.
