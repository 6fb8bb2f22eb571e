(** Properties C71 (for the runtime alone), C76 and C77: static models, the files the runtime writes and its traces. *)
From Coq Require Import ZArith Bool Ascii String Reals List.
From Flocq Require Import Core BinarySingleNaN.
From Verif Require Import Model.Base Model.Decimal Model.Float Model.DatasetM Model.ModelStringM Model.PolicyModelsM Model.ConfigM Model.RuntimeM
  Spec.DatasetSpec Spec.RuntimeSpec Spec.FileNames Proofs.RuntimeStatic Proofs.RuntimeFiles Proofs.RuntimeTraceDefects Proofs.RuntimeExamples Proofs.RuntimeFileExamples.
Import ListNotations.
Open Scope Z_scope.

(** ** C71 *)

(** With the setting Static,policy=p a region always gets policy p if it has it, and policy 0 if not. *)
Theorem C71_static_policy : forall P p c files os w xs r nf nm np mt info yaml init, 0 <= p <= 2147483647 -> cf_policy_model c = $"Static,policy=" ++ print_Z p ->
  run P (start_world c files) os = Ok (w, xs) -> Forall default_model os ->
  In (OpRegion nf nm np mt info yaml init, GotRegion r) (combine os xs) ->
  forall q D k, In (OpGetPolicy r q D, GotPolicy k) (combine os xs) -> k = if p <? np then p else 0.
Proof. exact static_run. Qed.
Print Assumptions C71_static_policy.

(** Policy 3 for a region with five policies and one with three. *)
Example C71_static_nonvacuous : exists w xs, run example_platform (start_world (settings "Static,policy=3" 0 0 0) []) static_calls = Ok (w, xs) /\
  Forall default_model static_calls /\ cf_policy_model (settings "Static,policy=3" 0 0 0) = $"Static,policy=" ++ print_Z 3 /\
  nth_error xs 3 = Some (GotPolicy 3) /\ nth_error xs 5 = Some (GotPolicy 0).
Proof. destruct static_example as (w & xs & E & A & B). exists w, xs. split; [exact E|]. split; [repeat constructor|]. split; [reflexivity|]. split; assumption. Qed.

(** ** C76 *)

(** The runtime removes no file and writes only its own: models, data, traces and run information. *)
Theorem C76_only_own_files : forall P c files os w xs, run P (start_world c files) os = Ok (w, xs) -> only_own_files c 0 files (w_files w).
Proof. exact files_run. Qed.
Print Assumptions C76_only_own_files.

(** The names spelled out. *)
Theorem C76_names : forall P c files os w xs path, run P (start_world c files) os = Ok (w, xs) ->
  (file_find path files <> None -> file_find path (w_files w) <> None) /\ (~ written_file c 0 path -> file_find path (w_files w) = file_find path files).
Proof. intros P c files os w xs path E. exact (files_run P c files os w xs E path). Qed.
Print Assumptions C76_names.

Example C76_nonvacuous : exists w xs, run example_platform (start_world storing other_files) storing_calls = Ok (w, xs) /\
  List.length (w_files w) = 3%nat /\ file_find ($"notes.txt") (w_files w) = Some ($"keep").
Proof. exact files_example. Qed.

(** ** C77 *)

(** With the trace of the best policies on, training a region with a feature that does not fit in an int is undefined. *)
Theorem C77_best_policies : forall P c files os w xs r R f p m,
  run P (start_world c files) os = Ok (w, xs) -> forallb explicit os = true -> nth_error (w_regions w) r = Some R -> r_alive R = true ->
  cf_trace_best c <> 0 -> cf_region_model c <> 0 -> In (f, p, m) (ds_to_vector (r_dataset R)) -> Exists unprintable f ->
  forall st (force : bool), force = true \/ m_trainable (r_model R) = true -> step P w (OpTrain r st false force) = UB.
Proof. exact best_trace_undefined. Qed.
Print Assumptions C77_best_policies.

(** With the trace of the policies on, asking for a policy with such a feature is. *)
Theorem C77_policies : forall P c files os w xs r p,
  run P (start_world c files) os = Ok (w, xs) -> forallb explicit os = true -> cf_trace_policy c <> 0 -> Exists unprintable (call_features w r (Some p)) ->
  forall D, (forall w' y, step P w (OpGetPolicy r (Some p) D) <> Ok (w', y)) /\
    (forall R k m, nth_error (w_regions w) r = Some R -> r_alive R = true -> (exists cx, get_context w p = Ok cx) ->
       m_get_index P D (r_model R) (call_features w r (Some p)) = Ok (k, m) -> step P w (OpGetPolicy r (Some p) D) = UB).
Proof. exact policy_trace_undefined. Qed.
Print Assumptions C77_policies.

Example C77_nonvacuous :
  (exists w xs R f p m,
    run example_platform (start_world best_tracing []) large_calls = Ok (w, xs) /\ nth_error (w_regions w) 0 = Some R /\ r_alive R = true /\ m_trainable (r_model R) = true /\
    In (f, p, m) (ds_to_vector (r_dataset R)) /\ Exists unprintable f /\ step example_platform w (OpTrain 0 0 false false) = UB) /\
  (exists w xs, run example_platform (start_world tracing []) asked_calls = Ok (w, xs) /\ forallb explicit asked_calls = true /\
    Exists unprintable (call_features w 0 (Some s0)) /\ step example_platform w (ask_policy s0) = UB).
Proof. split; [exact large_run|exact asked_run]. Qed.
