(** Properties C39-C41 and C78-C82: collective training over MPI. *)
From Coq Require Import ZArith Bool Ascii String Reals List.
From Flocq Require Import Core BinarySingleNaN.
From Verif Require Import Model.Base Model.Float Model.DatasetM Model.ModelStringM Model.PolicyModelsM Model.ConfigM Model.RuntimeM Model.MpiM
  Spec.DatasetSpec Spec.RuntimeSpec Spec.MpiSpec Proofs.RuntimeExamples Proofs.MpiSizes Proofs.MpiAgree Proofs.MpiExamples.
Import ListNotations.
Open Scope Z_scope.

(** ** C39 *)

(** Every rank fills its buffer, the exchange puts them together, and reading the result from its start to its end gives
    the measurements of all ranks as they were. *)
Theorem C39_packing_round_trips : forall M ws, faithful M -> exact_sizes M -> Forall all_alive ws -> Forall (fun w => is_int (w_rank w)) ws ->
  Forall sendable ws -> sizes_fit M ws ->
  exists bufs m, on_each (send_buffer M) ws = Ok bufs /\ received bufs = Ok m /\ reads M m 0 (flat_map sent ws).
Proof. exact packing_round_trips. Qed.
Print Assumptions C39_packing_round_trips.

(** A library that packs values as they are in memory. *)
Example C39_library : faithful native_mpi /\ exact_sizes native_mpi.
Proof. exact (conj native_faithful native_exact). Qed.

(** Three ranks, one of which has a second region with two features. *)
Example C39_C40_nonvacuous : exists ws, job_run native_mpi example_platform (ranks 3) with_other = Ok ws /\
  Forall sendable ws /\ sizes_fit native_mpi ws /\ Forall all_alive ws /\ Forall (fun w => cf_trace_allgather (w_config w) = 0) ws /\
  Z.of_nat (List.length ws) < 2 ^ 31 /\ List.length (flat_map sent ws) = 7%nat.
Proof. exact with_other_run. Qed.

(** ** C40 *)

(** In every job, gathering leaves each rank with its own data and that of the regions of the same name of the other
    ranks, inserted in the order of the ranks; nothing else changes. *)
Theorem C40_gather_merges : forall M P cs os ws step ws', faithful M -> exact_sizes M -> job_run M P (start_job cs) os = Ok ws ->
  Z.of_nat (List.length ws) < 2 ^ 31 -> Forall sendable ws -> sizes_fit M ws -> gather M ws step = Ok ws' ->
  List.length ws' = List.length ws /\
  forall i w, nth_error ws i = Some w -> exists w', nth_error ws' i = Some w' /\
    w_config w' = w_config w /\ w_rank w' = w_rank w /\ w_registry w' = w_registry w /\ w_executions w' = w_executions w /\
    (cf_trace_allgather (w_config w) = 0 -> w_files w' = w_files w) /\ List.length (w_regions w') = List.length (w_regions w) /\
    forall r R, nth_error (w_regions w) r = Some R -> exists R', nth_error (w_regions w') r = Some R' /\ same_but_measurements R R' /\
      (In (r_name R, r) (w_registry w) -> forall f p, Forall (fun x : f32 => is_nan x = false) f ->
         recorded f p (ds_to_vector (r_dataset R')) =
         moving_average (metrics_for f p (ds_to_vector (r_dataset R) ++ others ws (Z.of_nat i) (r_name R)))) /\
      (~ In (r_name R, r) (w_registry w) -> r_dataset R' = r_dataset R).
Proof. exact gather_merges. Qed.
Print Assumptions C40_gather_merges.

(** Gathering returns. *)
Theorem C40_gather_returns : forall M P cs os ws step, faithful M -> exact_sizes M -> job_run M P (start_job cs) os = Ok ws ->
  Z.of_nat (List.length ws) < 2 ^ 31 -> Forall all_alive ws -> Forall sendable ws -> sizes_fit M ws ->
  Forall (fun w => cf_trace_allgather (w_config w) = 0) ws -> exists ws', gather M ws step = Ok ws'.
Proof. exact gather_returns. Qed.
Print Assumptions C40_gather_returns.

(** ** C41 *)

(** Three ranks with the same measurements but one; after collective training the first has 5 s for policy 0 and chooses
    policy 1, the last has 3 s and chooses policy 0. *)
Theorem C41_ranks_disagree : exists ws, job_run native_mpi example_platform (ranks 3) (three ++ [Collective 0 true]) = Ok ws /\
  (metric_is 5 (metric_at ws 0 0) = true /\ metric_is 3 (metric_at ws 2 0) = true) /\
  (exists w w' x y, nth_error ws 0 = Some w /\ run example_platform w ask = Ok (w', [x; y; GotPolicy 1])) /\
  (exists w w' x y, nth_error ws 2 = Some w /\ run example_platform w ask = Ok (w', [x; y; GotPolicy 0])).
Proof. exact disagreement. Qed.
Print Assumptions C41_ranks_disagree.

(** ** C78 *)

(** Gathering returns normally only if every region took exactly the bytes that were asked for it. *)
Theorem C78_buffers_filled : forall M, faithful M -> enough M -> forall ws step ws', asked_fit M ws -> gather M ws step = Ok ws' ->
  Forall (fun w => Forall (fun R => packed_bytes M R = asked_bytes M R) (registered w)) ws.
Proof. exact gather_exact. Qed.
Print Assumptions C78_buffers_filled.

(** It never does with measurements of another number of features than declared. *)
Theorem C78_feature_count : forall M ws step ws' w R, faithful M -> exact_sizes M -> asked_fit M ws -> In w ws -> In R (registered w) ->
  sum_of (map (fun e : meas => Z.of_nat (List.length (m_features e))) (ds_to_vector (r_dataset R))) <> r_num_features R * ds_size (r_dataset R) ->
  gather M ws step <> Ok ws'.
Proof. exact features_mismatch. Qed.
Print Assumptions C78_feature_count.

Example C78_feature_count_nonvacuous : exists ws w R, job_run native_mpi example_platform (ranks 2) two_features = Ok ws /\
  asked_fit native_mpi ws /\ In w ws /\ In R (registered w) /\
  sum_of (map (fun e : meas => Z.of_nat (List.length (m_features e))) (ds_to_vector (r_dataset R))) <> r_num_features R * ds_size (r_dataset R).
Proof. exact two_features_run. Qed.

(** Nor with a library whose MPI_Pack_size asks for more than it needs. *)
Theorem C78_over_estimate : forall M ws step ws' w R, faithful M -> enough M -> asked_fit M ws -> In w ws -> In R (registered w) -> r_dataset R <> [] ->
  (forall e : meas, In e (ds_to_vector (r_dataset R)) -> Z.of_nat (List.length (m_features e)) = r_num_features R) ->
  measure_bytes M (r_num_features R) < asked_measure M (r_num_features R) -> gather M ws step <> Ok ws'.
Proof. exact over_estimate. Qed.
Print Assumptions C78_over_estimate.

Example C78_library : faithful cautious_mpi /\ enough cautious_mpi.
Proof. exact (conj cautious_faithful cautious_enough). Qed.
Example C78_over_estimate_nonvacuous : exists ws w R, job_run cautious_mpi example_platform (ranks 3) three = Ok ws /\ asked_fit cautious_mpi ws /\
  In w ws /\ In R (registered w) /\ r_dataset R <> [] /\
  (forall e : meas, In e (ds_to_vector (r_dataset R)) -> Z.of_nat (List.length (m_features e)) = r_num_features R) /\
  measure_bytes cautious_mpi (r_num_features R) < asked_measure cautious_mpi (r_num_features R).
Proof. exact cautious_run. Qed.

(** ** C79 *)

(** Ranks agree on the metric of a key that at most two of them had measured. *)
Theorem C79_two_ranks_agree : forall M P cs os ws step ws' n f p i1 w1 r1 i2 w2 r2, faithful M -> exact_sizes M ->
  job_run M P (start_job cs) os = Ok ws -> Z.of_nat (List.length ws) < 2 ^ 31 -> Forall sendable ws -> sizes_fit M ws -> gather M ws step = Ok ws' ->
  Forall (fun x : f32 => is_nan x = false) f -> (List.length (metrics_for f p (everyone ws n)) <= 2)%nat ->
  nth_error ws i1 = Some w1 -> In (n, r1) (w_registry w1) -> nth_error ws i2 = Some w2 -> In (n, r2) (w_registry w2) ->
  exists w1' R1' w2' R2', nth_error ws' i1 = Some w1' /\ nth_error (w_regions w1') r1 = Some R1' /\
    nth_error ws' i2 = Some w2' /\ nth_error (w_regions w2') r2 = Some R2' /\
    recorded f p (ds_to_vector (r_dataset R1')) = recorded f p (ds_to_vector (r_dataset R2')).
Proof. exact ranks_agree. Qed.
Print Assumptions C79_two_ranks_agree.

Example C79_nonvacuous : exists ws w1 w2, job_run native_mpi example_platform (ranks 2) pair_of_ranks = Ok ws /\
  Forall sendable ws /\ sizes_fit native_mpi ws /\ Forall all_alive ws /\ Forall (fun w => cf_trace_allgather (w_config w) = 0) ws /\
  Z.of_nat (List.length ws) < 2 ^ 31 /\ List.length (metrics_for [f32_of_Z 7] 0 (everyone ws ($"r"))) = 2%nat /\
  nth_error ws 0 = Some w1 /\ In ($"r", 0%nat) (w_registry w1) /\ nth_error ws 1 = Some w2 /\ In ($"r", 0%nat) (w_registry w2).
Proof. exact pair_run. Qed.

(** ** C80 *)

(** The metric of a key lies between the least and the greatest the ranks had. *)
Theorem C80_gathered_in_range : forall M P cs os ws step ws' n i w r f p, faithful M -> exact_sizes M ->
  job_run M P (start_job cs) os = Ok ws -> Z.of_nat (List.length ws) < 2 ^ 31 -> Forall sendable ws -> sizes_fit M ws -> gather M ws step = Ok ws' ->
  Forall (fun x : f32 => is_nan x = false) f ->
  (forall m, In m (metrics_for f p (everyone ws n)) -> is_finite m = true /\ (B2R m = 0 \/ bpow radix2 (-1021) <= Rabs (B2R m))%R) ->
  nth_error ws i = Some w -> In (n, r) (w_registry w) ->
  exists w' R', nth_error ws' i = Some w' /\ nth_error (w_regions w') r = Some R' /\
    forall v, recorded f p (ds_to_vector (r_dataset R')) = Some v ->
     is_finite v = true /\ (exists lo, In lo (metrics_for f p (everyone ws n)) /\ (B2R lo <= B2R v)%R) /\
     (exists hi, In hi (metrics_for f p (everyone ws n)) /\ (B2R v <= B2R hi)%R).
Proof. exact gathered_in_range. Qed.
Print Assumptions C80_gathered_in_range.

Example C80_nonvacuous : exists ws w, job_run native_mpi example_platform (ranks 3) three = Ok ws /\
  Forall sendable ws /\ sizes_fit native_mpi ws /\ Forall all_alive ws /\ Forall (fun w => cf_trace_allgather (w_config w) = 0) ws /\
  Z.of_nat (List.length ws) < 2 ^ 31 /\ nth_error ws 2 = Some w /\ In ($"r", 0%nat) (w_registry w) /\
  List.length (metrics_for [f32_of_Z 7] 0 (everyone ws ($"r"))) = 3%nat /\
  (forall m, In m (metrics_for [f32_of_Z 7] 0 (everyone ws ($"r"))) -> is_finite m = true /\ (B2R m = 0 \/ bpow radix2 (-1021) <= Rabs (B2R m))%R).
Proof. exact three_run. Qed.

(** ** C81 *)

(** After collective training a region with two policies chooses policy 2, which only another rank has. *)
Theorem C81_policy_of_another_rank : exists ws w w' x y R, job_run native_mpi example_platform (ranks 2) (uneven ++ [Collective 0 true]) = Ok ws /\
  nth_error ws 0 = Some w /\ nth_error (w_regions w) 0 = Some R /\ r_num_policies R = 2 /\ run example_platform w ask = Ok (w', [x; y; GotPolicy 2]).
Proof. exact uneven_run. Qed.
Print Assumptions C81_policy_of_another_rank.

(** ** C82 *)

(** A measurement that has completed on a device but is pending when collective training starts is used by its rank
    only. *)
Theorem C82_pending_not_shared : exists ws, job_run native_mpi example_platform (ranks 2) (device ++ [Collective 0 true]) = Ok ws /\
  size_at ws 0 = 1 /\ size_at ws 1 = 0.
Proof. exact device_run. Qed.
Print Assumptions C82_pending_not_shared.
