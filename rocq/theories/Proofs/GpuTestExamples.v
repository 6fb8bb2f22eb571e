(** Cases of the device programs. *)
From Coq Require Import ZArith Bool Ascii String Lia List.
From Verif Require Import Model.Base Model.Float Model.PolicyModelsM Model.ConfigM Model.RuntimeM Model.GpuTestM Spec.SafeClient Spec.OverheadSpec
  Proofs.RuntimeExamples Proofs.SafeExamples Proofs.TestVerdict Proofs.OverheadFacts Proofs.OverheadExamples Proofs.GpuTestFacts.
Import ListNotations.
Open Scope Z_scope.

(** A region with a decision tree, between `ctx->timer->start()` and `r->end()`. *)
Definition timed : world := bench defaults [] 1 2 (fresh 2 0) [] 1 (Some (0%nat, Sync)) (mkContext [f32_of_Z 5] 0 0 (Events false None)) 0.
Definition timed_region : region := mkRegion true ($"test-overhead") 1 2 0 ($"DecisionTree,max_depth=2") ($"DecisionTree") (fresh 2 0) [] 1 (Some (0%nat, Sync)) (mkContext [f32_of_Z 5] 0 0 (Events false None)) [] [] [].

Lemma timed_case : nth_error (w_regions timed) 0 = Some timed_region /\ r_alive timed_region = true /\ c_timer (r_sync timed_region) = Events false None /\
  m_trainable (r_model timed_region) = true /\ r_min_training timed_region <= 0 /\ bare (w_config timed) /\
  exists w', end_installed example_platform timed 0 (0%nat, Sync) (0, 0) (Some (f32_of_Z 3)) = Ok w'.
Proof.
  split; [reflexivity|]. split; [reflexivity|]. split; [reflexivity|]. split; [reflexivity|]. split; [cbn; lia|]. split; [exact defaults_bare|].
  assert (K : match end_installed example_platform timed 0 (0%nat, Sync) (0, 0) (Some (f32_of_Z 3)) with Ok _ => true | _ => false end = true) by (vm_compute; reflexivity).
  destruct (end_installed _ _ _ _ _ _) as [w'| | | |]; try discriminate K. exists w'. reflexivity.
Qed.

Lemma defaults_static : cf_policy_model defaults = $"Static,policy=0".
Proof. vm_compute. reflexivity. Qed.

Lemma cuda_case : exists w, cuda_main example_platform ticking ticked (fun _ => some_draws) (fun _ => Some (f32_of_Z 2)) no_init (start_world defaults []) = Ok (w, repeat 0 20).
Proof.
  apply (programs_end example_platform defaults [] ticking ticked (fun _ => some_draws) (fun _ => Some (f32_of_Z 2)) no_init defaults_bare defaults_static).
  intros j _ K. discriminate K.
Qed.
Lemma hip_case : hip_main example_platform ticking ticked (fun _ => some_draws) (fun j => if Nat.eqb j 0 then None else Some (f32_of_Z 2)) no_init (start_world defaults []) = UB.
Proof.
  apply (programs_late example_platform defaults [] ticking ticked (fun _ => some_draws) (fun j => if Nat.eqb j 0 then None else Some (f32_of_Z 2)) no_init defaults_bare defaults_static).
  exists 0%nat. split; [lia|reflexivity].
Qed.
