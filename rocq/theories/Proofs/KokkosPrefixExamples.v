(** A concrete run for Props/KokkosPrefix.v. *)
From Coq Require Import ZArith Bool Ascii String Lia List.
From Verif Require Import Model.Base Model.Float Model.DatasetM Model.ModelStringM Model.PolicyModelsM Model.ConfigM Model.RuntimeM Model.KokkosM
  Spec.DatasetSpec Spec.RuntimeSpec Spec.KokkosSpec Proofs.TreeFacts Proofs.ModelStringFacts Proofs.RuntimeExamples Proofs.RuntimePolicyExamples
  Proofs.KokkosRuns Proofs.KokkosExamples.
Import ListNotations.
Local Open Scope Z_scope.

(** Two loops of one kernel: only the last characters of the names of their problems differ, which are cut off. *)
Definition loop_declarations : list kop :=
  [KInput ($"kokkos.kernel_name") 1; KInput ($"kokkos.kernel_type") 2;
   KOutput ($"tile_size_of_the_outer_loop") 3 (CSet [VInt 8; VInt 16]); KOutput ($"tile_size_of_the_outer_loop_2") 4 (CSet [VInt 8; VInt 16])].
Definition ask_loop (context loop t : Z) : kop := KRequest context [(1, VInt 5); (2, VInt 6)] [loop] (t, 0) fair_draws no_init.
Definition loop_calls : list kop :=
  loop_declarations ++ [ask_loop 10 3 0; end_kernel 10 1; ask_loop 11 4 2; end_kernel 11 4; ask_loop 12 3 5; end_kernel 12 8; ask_loop 13 4 9; end_kernel 13 12].
Definition loop_name : bytes := $"kokkos.kernel_name_kokkos.kernel_type_tile_size_of_the_outer_lo".

Lemma forest_learns mn ps : parse_policy_model (cf_policy_model forest_settings) = Ok (mn, ps) -> mn = $"DecisionTree" \/ mn = $"RandomForest".
Proof.
  intros H. assert (X : parse_policy_model (cf_policy_model forest_settings) = Ok ($"RandomForest", [($"explore", $"RoundRobin")])) by reflexivity.
  rewrite X in H. injection H as <- _. right. reflexivity.
Qed.

Lemma first_loop_named : named (firstn 4 loop_calls) [1; 2; 3] loop_name.
Proof.
  exists [$"kokkos.kernel_name"; $"kokkos.kernel_type"; $"tile_size_of_the_outer_loop"]. split; [|reflexivity].
  repeat (constructor; [eexists; split; reflexivity|]). constructor.
Qed.
Lemma second_loop_named : named (firstn 6 loop_calls) [1; 2; 4] loop_name.
Proof.
  exists [$"kokkos.kernel_name"; $"kokkos.kernel_type"; $"tile_size_of_the_outer_loop_2"]. split; [|reflexivity].
  repeat (constructor; [eexists; split; reflexivity|]). constructor.
Qed.
Lemma loop_problems : problems (firstn 4 loop_calls) = [] /\ problems (firstn 6 loop_calls) = [[1; 2; 3]] /\ problems loop_calls = [[1; 2; 3]; [1; 2; 4]].
Proof. repeat split; reflexivity. Qed.

(** Both were measured twice; the training happened after the second and the fourth end, for the first loop only. *)
Lemma loop_run : exists K vss, krun example_platform example_hash (started forest_settings [] 2) loop_calls = Ok (K, vss) /\
  exists R0 R1, nth_error (w_regions (k_world K)) 0 = Some R0 /\ m_trainable (r_model R0) = false /\
    nth_error (w_regions (k_world K)) 1 = Some R1 /\ m_trainable (r_model R1) = true /\ ds_size (r_dataset R1) = 2.
Proof.
  destruct (krun_holds forest_settings [] 2 loop_calls (fun s =>
    region_b (k_world (fst s)) 0 (fun R => negb (m_trainable (r_model R))) &&
    region_b (k_world (fst s)) 1 (fun R => m_trainable (r_model R) && (ds_size (r_dataset R) =? 2)))) as (K & vss & E & H); [vm_compute; reflexivity|].
  exists K, vss. split; [exact E|]. clear E. cbn [fst] in H. apply andb_prop in H. destruct H as [A B]. apply region_b_true in A, B.
  destruct A as (R0 & E0 & A). destruct B as (R1 & E1 & B). apply andb_prop in B. destruct B as [B C]. apply negb_true_iff in A. apply Z.eqb_eq in C. exists R0, R1. auto.
Qed.
