(** Property C91: what the traces of policies and of best policies hold. *)
From Coq Require Import ZArith Bool Ascii String List.
From Verif Require Import Model.Base Model.Float Model.DatasetM Model.PolicyModelsM Model.ConfigM Model.RuntimeM Spec.RuntimeSpec Spec.TraceSpec
  Proofs.RuntimeExamples Proofs.Reports Proofs.ReportExamples.
Import ListNotations.
Open Scope Z_scope.

(** With APOLLO_TRACE_POLICY the file of the rank gets one line for each policy asked for, in order, with the region, its
    model, the features at that time, and the policy answered; nothing else is written to it and nothing is taken from it.
    Without the setting no call changes the file. *)
Theorem C91_policy_trace : forall P os w w' xs, run P w os = Ok (w', xs) ->
  (cf_trace_policy (w_config w) = 0 -> file_find (policy_file (w_rank w)) (w_files w') = file_find (policy_file (w_rank w)) (w_files w)) /\
  (cf_trace_policy (w_config w) <> 0 -> contents (policy_file (w_rank w)) (w_files w') = contents (policy_file (w_rank w)) (w_files w) ++ List.concat (policy_lines P w os)).
Proof. exact policy_trace_run. Qed.
Print Assumptions C91_policy_trace.

Example C91_policy_nonvacuous :
  exists w xs, run example_platform (start_world (traced 0) []) two_regions = Ok (w, xs) /\ contents (policy_file 0) (w_files w) = policies_text.
Proof. exact two_traced. Qed.

(** With APOLLO_TRACE_BEST_POLICIES a training of a region leaves, in the file of its step, rank and name, the best policy
    of every features vector of its data. *)
Theorem C91_train_report : forall P c files os w xs r st collect force w' y R R',
  run P (start_world c files) os = Ok (w, xs) -> step P w (OpTrain r st collect force) = Ok (w', y) -> cf_trace_best c <> 0 ->
  nth_error (w_regions w) r = Some R -> force = true \/ m_trainable (r_model R) = true ->
  nth_error (w_regions w') r = Some R' -> 0 < ds_size (r_dataset R') -> reported w' st R'.
Proof. exact train_reports. Qed.
Print Assumptions C91_train_report.

Example C91_train_nonvacuous : exists w xs w' y, run example_platform (start_world (traced 0) []) two_regions = Ok (w, xs) /\
  step example_platform w (OpTrain 0 9 true false) = Ok (w', y) /\ trainable_b w 0 = true /\ all_numbers w' 0 /\
  file_find (best_file 9 0 ($"r")) (w_files w') = Some best_text.
Proof. exact two_train. Qed.

(** Apollo::train does so for every registered region that can be trained, when there are no pending executions or they
    are not collected. *)
Theorem C91_train_all_report : forall P c files os w xs st collect w' y i R R',
  run P (start_world c files) os = Ok (w, xs) -> step P w (OpTrainAll st collect) = Ok (w', y) -> cf_trace_best c <> 0 -> cf_single_model c = 0 ->
  (collect = true -> forall j Rj, nth_error (w_regions w) j = Some Rj -> r_pending Rj = []) ->
  first_named (region_names w) (r_name R) i -> nth_error (w_regions w) i = Some R -> m_trainable (r_model R) = true ->
  nth_error (w_regions w') i = Some R' -> 0 < ds_size (r_dataset R') -> reported w' st R'.
Proof. exact train_all_reports. Qed.
Print Assumptions C91_train_all_report.

Example C91_train_all_nonvacuous : exists w xs w' y, run example_platform (start_world (traced 0) []) two_regions = Ok (w, xs) /\
  step example_platform w (OpTrainAll 9 false) = Ok (w', y) /\ trainable_b w 0 = true /\ all_numbers w' 0 /\
  file_find (best_file 9 0 ($"r")) (w_files w') = Some best_text.
Proof. exact two_train_all. Qed.

(** So does automatic training: for all regions with the number of executions as the step, for one region with the number
    of its executions. *)
Theorem C91_end_report : forall P c files os w xs r now early w' y R R',
  run P (start_world c files) os = Ok (w, xs) -> forallb explicit os = true -> step P w (OpEnd r (Some (r, Sync)) now early) = Ok (w', y) -> cf_trace_best c <> 0 ->
  nth_error (w_regions w) r = Some R -> nth_error (w_regions w') r = Some R' -> m_trainable (r_model R) = true ->
  end_report c os xs w w' r R'.
Proof. exact end_reports. Qed.
Print Assumptions C91_end_report.

Theorem C91_collected_report : forall P c files os w xs r p x w' R R',
  run P (start_world c files) os = Ok (w, xs) -> forallb explicit os = true -> collect_context P w r p x = Ok w' -> cf_trace_best c <> 0 ->
  nth_error (w_regions w) r = Some R -> nth_error (w_regions w') r = Some R' -> m_trainable (r_model R) = true ->
  end_report c os xs w w' r R'.
Proof. exact collected_reports. Qed.
Print Assumptions C91_collected_report.

(** A global period of 4: the end of the fourth execution, of region "q", reports on both regions. *)
Example C91_end_nonvacuous : exists w xs w' y, run example_platform (start_world (traced 4) []) two_regions = Ok (w, xs) /\ forallb explicit two_regions = true /\
  step example_platform w end_other = Ok (w', y) /\ global_due (w_config w) ((w_executions w + 1) mod 2 ^ 64) /\ trainable_b w 0 = true /\ trainable_b w 1 = true /\ all_numbers w' 0 /\
  file_find (best_file 4 0 ($"r")) (w_files w') = Some best_text /\ file_find (best_file 4 0 ($"q")) (w_files w') = Some other_text.
Proof. exact two_end. Qed.
