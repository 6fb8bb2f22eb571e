(** Property C100: a device timer installed on the synchronous context, as the bundled device programs do. *)
From Coq Require Import ZArith Bool Ascii String List.
From Verif Require Import Model.Base Model.Float Model.DatasetM Model.PolicyModelsM Model.ConfigM Model.RuntimeM Model.GpuTestM Spec.OverheadSpec
  Proofs.RuntimeExamples Proofs.SafeExamples Proofs.TestVerdict Proofs.OverheadExamples Proofs.GpuTestFacts Proofs.GpuTestExamples.
Import ListNotations.
Open Scope Z_scope.

(** Whatever the settings and the model, ending a synchronous context that has a device timer is undefined if the device
    has not reached the stop event that the call itself has just recorded. *)
Theorem C100_late_end : forall P w r R b e now, nth_error (w_regions w) r = Some R -> r_alive R = true -> c_timer (r_sync R) = Events b e ->
  end_installed P w r (r, Sync) now None = UB.
Proof. exact late_end. Qed.
Print Assumptions C100_late_end.

(** If it has, the elapsed time in seconds is recorded for the features and the policy of the execution. *)
Theorem C100_early_end : forall P w r R b e now ms w', bare (w_config w) -> nth_error (w_regions w) r = Some R -> r_alive R = true ->
  c_timer (r_sync R) = Events b e -> m_trainable (r_model R) = true -> r_min_training R <= 0 ->
  end_installed P w r (r, Sync) now (Some ms) = Ok w' ->
  exists R', nth_error (w_regions w') r = Some R' /\
    ds_insert (r_dataset R) (c_features (r_sync R)) (c_policy (r_sync R)) (div64 (f64_of_f32 ms) (f64_of_Z 1000)) = Ok (r_dataset R') /\
    r_model R' = r_model R /\ r_current R' = None.
Proof. exact early_recorded. Qed.
Print Assumptions C100_early_end.

Example C100_end_nonvacuous : nth_error (w_regions timed) 0 = Some timed_region /\ r_alive timed_region = true /\ c_timer (r_sync timed_region) = Events false None /\
  m_trainable (r_model timed_region) = true /\ r_min_training timed_region <= 0 /\ bare (w_config timed) /\
  exists w', end_installed example_platform timed 0 (0%nat, Sync) (0, 0) (Some (f32_of_Z 3)) = Ok w'.
Proof. exact timed_case. Qed.

(** With the timer a context is born with, and for contexts on the heap, the call is the one of all other properties. *)
Theorem C100_other_ends : forall P w r now early,
  (forall p, is_sync_of r p = false -> end_installed P w r p now early = end_context P w r p now early) /\
  (forall R b e, nth_error (w_regions w) r = Some R -> r_alive R = true -> c_timer (r_sync R) = Clock b e ->
    end_installed P w r (r, Sync) now early = end_context P w r (r, Sync) now early).
Proof. exact (fun P w r now early => conj (fun p => other_end P w r p now early) (fun R b e => own_end P w r R b e now early)). Qed.
Print Assumptions C100_other_ends.

(** Without environment variables, the bundled device programs take policy 0 in each of their 20 executions and end
    normally if the device always reaches the stop event in time, ... *)
Theorem C100_programs_complete : forall P c files started ended D early init, bare c -> cf_policy_model c = $"Static,policy=0" ->
  (forall j, (j < 20)%nat -> early j <> None) ->
  (exists w, cuda_main P started ended D early init (start_world c files) = Ok (w, repeat 0 20)) /\
  (exists w, hip_main P started ended D early init (start_world c files) = Ok (w, repeat 0 20)).
Proof. exact programs_end. Qed.
Print Assumptions C100_programs_complete.

(** ... and are undefined if it is once late. *)
Theorem C100_programs_undefined : forall P c files started ended D early init, bare c -> cf_policy_model c = $"Static,policy=0" ->
  (exists j, (j < 20)%nat /\ early j = None) ->
  cuda_main P started ended D early init (start_world c files) = UB /\ hip_main P started ended D early init (start_world c files) = UB.
Proof. exact programs_late. Qed.
Print Assumptions C100_programs_undefined.

Example C100_nonvacuous : apollo_instance false (fun _ => None) (fun _ => true) true = Ok defaults /\ bare defaults /\ cf_policy_model defaults = $"Static,policy=0" /\
  (exists w, cuda_main example_platform ticking ticked (fun _ => some_draws) (fun _ => Some (f32_of_Z 2)) no_init (start_world defaults []) = Ok (w, repeat 0 20)) /\
  hip_main example_platform ticking ticked (fun _ => some_draws) (fun j => if Nat.eqb j 0 then None else Some (f32_of_Z 2)) no_init (start_world defaults []) = UB.
Proof. exact (conj defaults_ok (conj defaults_bare (conj defaults_static (conj cuda_case hip_case)))). Qed.
