(** C143: Kokkos problems whose names begin alike. *)
From Coq Require Import ZArith Bool Ascii String List.
From Verif Require Import Model.Base Model.Float Model.DatasetM Model.ModelStringM Model.PolicyModelsM Model.ConfigM Model.RuntimeM Model.KokkosM
  Spec.DatasetSpec Spec.RuntimeSpec Spec.KokkosSpec Proofs.KokkosPrefix Proofs.RuntimeExamples Proofs.KokkosExamples Proofs.KokkosPrefixExamples.
Import ListNotations.
Open Scope Z_scope.

(** ** C143 (defect) *)

(** Two different problems first met at calls [i] and [j], with names that are the same once cut after 63 characters, are
    two regions, but however many flushes follow, the model of the second is never trained: it explores to the end. *)
Theorem C143_second_explores : forall P hash c files flush os K vss i j oi oj ids ids' n,
  krun P hash (started c files flush) os = Ok (K, vss) ->
  no_periods c -> starts_fresh c ->
  (forall mn ps, parse_policy_model (cf_policy_model c) = Ok (mn, ps) -> mn = $"DecisionTree" \/ mn = $"RandomForest") ->
  (i < j)%nat ->
  nth_error os i = Some oi -> problem oi = Some ids -> ~ In ids (problems (firstn i os)) -> named (firstn i os) ids n ->
  nth_error os j = Some oj -> problem oj = Some ids' -> ~ In ids' (problems (firstn j os)) -> named (firstn j os) ids' n ->
  exists r R, place ids' (problems os) = Some r /\ nth_error (w_regions (k_world K)) r = Some R /\ m_trainable (r_model R) = true.
Proof. exact second_of_a_name_explores. Qed.
Print Assumptions C143_second_explores.

(** Two loops measured twice each, with a flush after every second end: the first is trained, the second is not. *)
Example C143_nonvacuous : exists K vss, krun example_platform example_hash (started forest_settings [] 2) loop_calls = Ok (K, vss) /\
  no_periods forest_settings /\ starts_fresh forest_settings /\
  (forall mn ps, parse_policy_model (cf_policy_model forest_settings) = Ok (mn, ps) -> mn = $"DecisionTree" \/ mn = $"RandomForest") /\
  nth_error loop_calls 4 = Some (ask_loop 10 3 0) /\ problem (ask_loop 10 3 0) = Some [1; 2; 3] /\ ~ In [1; 2; 3] (problems (firstn 4 loop_calls)) /\
  named (firstn 4 loop_calls) [1; 2; 3] loop_name /\
  nth_error loop_calls 6 = Some (ask_loop 11 4 2) /\ problem (ask_loop 11 4 2) = Some [1; 2; 4] /\ ~ In [1; 2; 4] (problems (firstn 6 loop_calls)) /\
  named (firstn 6 loop_calls) [1; 2; 4] loop_name /\ flushes 2 (firstn 7 loop_calls) (end_kernel 11 4) /\ flushes 2 (firstn 11 loop_calls) (end_kernel 13 12) /\
  exists R0 R1, nth_error (w_regions (k_world K)) 0 = Some R0 /\ m_trainable (r_model R0) = false /\
    nth_error (w_regions (k_world K)) 1 = Some R1 /\ m_trainable (r_model R1) = true /\ ds_size (r_dataset R1) = 2.
Proof.
  destruct loop_run as (K & vss & E & R). destruct loop_problems as (P1 & P2 & _). exists K, vss. split; [exact E|]. clear E. split; [split; reflexivity|].
  split; [exact forest_fresh|]. split; [exact forest_learns|]. split; [reflexivity|]. split; [reflexivity|]. split; [rewrite P1; intros []|].
  split; [exact first_loop_named|]. split; [reflexivity|]. split; [reflexivity|]. split; [rewrite P2; intros [X|[]]; discriminate X|].
  split; [exact second_loop_named|]. split; [split; [discriminate|reflexivity]|]. split; [split; [discriminate|reflexivity]|]. exact R.
Qed.
