(** Concrete jobs for Props/MpiTraces.v. *)
From Coq Require Import ZArith Bool Ascii String Reals Lia Lra List.
From Flocq Require Import Core BinarySingleNaN.
From Verif Require Import Model.Base Model.Float Model.Decimal Model.DatasetM
  Model.ModelStringM Model.PolicyModelsM Model.ConfigM Model.RuntimeM Model.MpiM
  Spec.DatasetSpec Spec.StartupSpec Spec.RuntimeSpec Spec.MpiSpec Spec.GatherTrace Proofs.TreeFacts Proofs.RuntimeExamples Proofs.RuntimeTraceDefects Proofs.MpiExamples.
Import ListNotations.
Open Scope Z_scope.

(** Collective training with the trace of gathering. *)
Definition tracing : config :=
  mkConfig ($"DecisionTree,explore=RoundRobin") 1 0 0 1 0 0 0 0 0 1 0 0 one32 half32 0 0 0 ($".apollo") ($".apollo/datasets")
    ($".apollo/traces") ($".apollo/models").
(** The first of two ranks traces. *)
Definition two_ranks : list world := start_job [(tracing, []); (together, [])].

(** One execution with the feature [x] on each rank. *)
Definition once (rank : nat) (x t : Z) : list job_op :=
  map (Local rank) [OpRegion 1 ($"r") 2 0 [] [] no_init; OpBegin 0 false (0, 0); give s0 x; ask_policy s0; OpEndMetric 0 (Some s0) (f64_of_Z t)].
Definition two_jobs : list job_op := once 0 7 1 ++ once 1 (-8) 4.
Definition huge_job : list job_op := once 0 7 1 ++ once 1 (10 ^ 10) 4.

(** Checks. *)
Definition fine (ws : list world) : bool := forallb sendable_b ws && fit_b ws && forallb alive_b ws && small_b ws.
Lemma fine_true ws : fine ws = true -> Forall sendable ws /\ sizes_fit native_mpi ws /\ Forall all_alive ws /\ Z.of_nat (List.length ws) < 2 ^ 31.
Proof.
  unfold fine. intros H. do 3 (apply andb_prop in H; let K := fresh in destruct H as [H K]).
  split; [apply sendable_b_true; assumption|]. split; [apply fit_b_true; assumption|]. split; [apply alive_b_true; assumption|]. apply Z.ltb_lt. assumption.
Qed.
Definition traces_b (ws : list world) (i : nat) : bool := match nth_error ws i with Some w => negb (cf_trace_allgather (w_config w) =? 0) | None => false end.
Lemma traces_b_true ws i : traces_b ws i = true -> exists w, nth_error ws i = Some w /\ cf_trace_allgather (w_config w) <> 0.
Proof. unfold traces_b. destruct (nth_error ws i) as [w|]; [|discriminate]. intros H. exists w. split; [reflexivity|]. apply negb_true_iff, Z.eqb_neq in H. exact H. Qed.
Definition int_undefined (x : f32) : bool := match int_of_float x with UB => true | _ => false end.
Lemma int_undefined_true x : int_undefined x = true -> unprintable x.
Proof. unfold int_undefined. intros H. apply unprintable_undefined. destruct (int_of_float x); try discriminate H; reflexivity. Qed.
Definition unprintable_b (ws : list world) : bool :=
  existsb (fun w => existsb (fun R => existsb (fun e : meas => existsb int_undefined (m_features e)) (ds_to_vector (r_dataset R))) (registered w)) ws.
Lemma unprintable_b_true ws : unprintable_b ws = true -> unprintable_measurement ws.
Proof.
  unfold unprintable_b. intros H. apply existsb_exists in H. destruct H as (w & IW & H). apply existsb_exists in H. destruct H as (R & IR & H). apply existsb_exists in H. destruct H as (e & IE & H).
  exists w, R, e. repeat (split; [assumption|]). apply existsb_exists in H. destruct H as (x & IX & H). apply Exists_exists. exists x. split; [exact IX|apply int_undefined_true; exact H].
Qed.
Definition gathers_b (text : bytes) (ws : list world) : bool :=
  match gather native_mpi ws 3 with
  | Ok (w :: _) => match file_find ($"step-3-rank-0-allgather.txt") (w_files w) with Some s => bytes_eqb s text | None => false end
  | _ => false
  end.
Lemma gathers_b_true text ws : gathers_b text ws = true -> exists w' r, gather native_mpi ws 3 = Ok (w' :: r) /\ file_find ($"step-3-rank-0-allgather.txt") (w_files w') = Some text.
Proof.
  unfold gathers_b. destruct (gather native_mpi ws 3) as [[|w' r]| | | |]; try discriminate. destruct (file_find _ (w_files w')) as [s|] eqn:E; [|discriminate]. intros H. apply ModelStringFacts.bytes_eqb_eq in H. subst s. eauto.
Qed.

Definition two_text : bytes :=
  $"rank, region_name, features, policy, time_avg" ++ [nl] ++ $"0, r, [ 7, ], 0, 1" ++ [nl] ++ $"1, r, [ -8, ], 0, 4" ++ [nl].

Lemma two_run : exists ws w w' r, job_run native_mpi example_platform two_ranks two_jobs = Ok ws /\
  Forall sendable ws /\ sizes_fit native_mpi ws /\ Forall all_alive ws /\ Z.of_nat (List.length ws) < 2 ^ 31 /\
  nth_error ws 0 = Some w /\ cf_trace_allgather (w_config w) <> 0 /\
  gather native_mpi ws 3 = Ok (w' :: r) /\ file_find ($"step-3-rank-0-allgather.txt") (w_files w') = Some two_text.
Proof.
  destruct (job_holds native_mpi example_platform two_ranks two_jobs (fun ws => fine ws && traces_b ws 0 && gathers_b two_text ws)) as (ws & E & H); [vm_compute; reflexivity|].
  apply andb_prop in H. destruct H as [H H3]. apply andb_prop in H. destruct H as [H1 H2]. destruct (fine_true _ H1) as (A & B & C & D). destruct (traces_b_true _ _ H2) as (w & G & T). destruct (gathers_b_true _ _ H3) as (w' & r & F & X).
  exists ws, w, w', r. auto 20.
Qed.

Lemma huge_run : exists ws w, job_run native_mpi example_platform two_ranks huge_job = Ok ws /\
  Forall sendable ws /\ sizes_fit native_mpi ws /\ Forall all_alive ws /\ Z.of_nat (List.length ws) < 2 ^ 31 /\
  In w ws /\ cf_trace_allgather (w_config w) <> 0 /\ unprintable_measurement ws.
Proof.
  destruct (job_holds native_mpi example_platform two_ranks huge_job (fun ws => fine ws && traces_b ws 0 && unprintable_b ws)) as (ws & E & H); [vm_compute; reflexivity|].
  apply andb_prop in H. destruct H as [H H3]. apply andb_prop in H. destruct H as [H1 H2]. destruct (fine_true _ H1) as (A & B & C & D). destruct (traces_b_true _ _ H2) as (w & G & T). apply unprintable_b_true in H3.
  exists ws, w. split; [exact E|]. clear E. apply nth_error_In in G. auto 20.
Qed.
