(** C84: data sets kept from one run to the next. *)
From Coq Require Import ZArith Bool String List.
From Verif Require Import Model.Base Model.Float Model.DatasetM Model.ParserM Model.DatasetIO Model.ModelStringM Model.PolicyModelsM Model.ConfigM Model.RuntimeM
  Spec.DatasetSpec Spec.DatasetClient Spec.DatasetFileSpec Spec.RuntimeSpec Spec.FileNames Proofs.ModelStringFacts Proofs.RuntimeExamples Proofs.RuntimePolicyExamples Proofs.RuntimePersist Proofs.RuntimePersistExamples Spec.SafeClient.
Import ListNotations.
Open Scope Z_scope.

Theorem C84_saved : forall P c files os w xs waits w' x nm i R, run P (start_world c files) os = Ok (w, xs) -> cf_persistent c <> 0 -> (forall r, pending_of w r = []) ->
  step P w (OpShutdown waits) = Ok (w', x) -> first_named (region_names w) nm i -> nth_error (w_regions w) i = Some R ->
  file_find (data_file c nm) (w_files w') = Some (ds_store (r_dataset R)).
Proof. exact saved. Qed.
Print Assumptions C84_saved.

Theorem C84_destroyed : forall P w r waits w' x, step P w (OpDestroy r waits) = Ok (w', x) -> cf_persistent (w_config w) <> 0 ->
  exists R', nth_error (w_regions w') r = Some R' /\ file_find (data_file (w_config w) (r_name R')) (w_files w') = Some (ds_store (r_dataset R')).
Proof. exact destroyed_saves. Qed.
Print Assumptions C84_destroyed.

Theorem C84_reloaded : forall P c files os w xs i R, run P (start_world c files) os = Ok (w, xs) -> nth_error (w_regions w) i = Some R ->
  ds_size (r_dataset R) <= 2147483648 ->
  Forall (fun m => (List.length (m_features m) <= 1)%nat /\ is_int (m_policy m) /\ meas_normal m) (ds_to_vector (r_dataset R)) ->
  exists copies d', Forall2 meas_copy (ds_to_vector (r_dataset R)) copies /\ insert_all [] copies = Ok d' /\
  forall P2 w2 nf nm np mt info yaml init, cf_persistent (w_config w2) <> 0 ->
    file_find (data_file (w_config w2) (firstn 63 (cstr nm))) (w_files w2) = Some (ds_store (r_dataset R)) ->
    (forall w3 r3, step P2 w2 (OpRegion nf nm np mt info yaml init) = Ok (w3, GotRegion r3) ->
       (forall name ps, parse_policy_model (model_string (w_config w2) info) = Ok (name, ps) -> name <> $"DatasetMap" /\ param_find ($"load-dataset") ps = None) ->
       exists R3, nth_error (w_regions w3) r3 = Some R3 /\ r_dataset R3 = d') /\
    (0 <= nf -> 1 <= np <= 1024 -> yaml = [] -> model_string_ok (model_string (w_config w2) info) ->
       cf_global_period (w_config w2) = 0 -> cf_region_period (w_config w2) = 0 -> mt <= 0 ->
       exists w3 r3, step P2 w2 (OpRegion nf nm np mt info yaml init) = Ok (w3, GotRegion r3)).
Proof. exact reloaded. Qed.
Print Assumptions C84_reloaded.

Theorem C84_two_features : forall P c files os w xs i R, run P (start_world c files) os = Ok (w, xs) -> nth_error (w_regions w) i = Some R ->
  ds_size (r_dataset R) <= 2147483648 -> Forall (fun m => is_int (m_policy m)) (ds_to_vector (r_dataset R)) ->
  Exists (fun m => (2 <= List.length (m_features m))%nat) (ds_to_vector (r_dataset R)) ->
  forall P2 w2 nf nm np mt info yaml init, cf_persistent (w_config w2) <> 0 ->
    file_find (data_file (w_config w2) (firstn 63 (cstr nm))) (w_files w2) = Some (ds_store (r_dataset R)) ->
    (forall w3 x, step P2 w2 (OpRegion nf nm np mt info yaml init) <> Ok (w3, x)) /\
    (0 <= nf -> 1 <= np <= 1024 -> yaml = [] -> model_string_ok (model_string (w_config w2) info) -> Forall meas_normal (ds_to_vector (r_dataset R)) ->
       step P2 w2 (OpRegion nf nm np mt info yaml init) = Abort).
Proof. exact not_reloaded. Qed.
Print Assumptions C84_two_features.

(** A run with a region of one feature and a region of two. *)
Example C84_nonvacuous : exists w xs w' Ra Rb, run example_platform (start_world keeping []) keep_calls = Ok (w, xs) /\ (forall r, pending_of w r = []) /\
  step example_platform w (OpShutdown quiet_waits) = Ok (w', Done) /\
  first_named (region_names w) ($"a") 0 /\ first_named (region_names w) ($"b") 1 /\
  nth_error (w_regions w) 0 = Some Ra /\ nth_error (w_regions w) 1 = Some Rb /\
  (ds_size (r_dataset Ra) <= 2147483648 /\ List.length (ds_to_vector (r_dataset Ra)) = 2%nat /\
   Forall (fun m => (List.length (m_features m) <= 1)%nat /\ is_int (m_policy m) /\ meas_normal m) (ds_to_vector (r_dataset Ra))) /\
  (ds_size (r_dataset Rb) <= 2147483648 /\ Forall (fun m => is_int (m_policy m)) (ds_to_vector (r_dataset Rb)) /\ Forall meas_normal (ds_to_vector (r_dataset Rb)) /\
   Exists (fun m => (2 <= List.length (m_features m))%nat) (ds_to_vector (r_dataset Rb))).
Proof. exact kept_run. Qed.

(** The files that run leaves: the first region is created again with its data, the second ends the program. *)
Example C84_next_run : match run example_platform (start_world keeping []) (keep_calls ++ [OpShutdown quiet_waits]) with
  | Ok (w, _) =>
      match step example_platform (start_world keeping (w_files w)) (make "a" 2 0 "DecisionTree,explore=RoundRobin") with
      | Ok (w2, GotRegion 0) => region_b w2 0 (fun R => Nat.eqb (List.length (ds_to_vector (r_dataset R))) 2)
      | _ => false end &&
      match step example_platform (start_world keeping (w_files w)) (OpRegion 2 ($"b") 2 0 ($"DecisionTree,explore=RoundRobin") [] no_init) with Abort => true | _ => false end
  | _ => false end = true.
Proof. exact next_run. Qed.

Example C84_destroyed_nonvacuous : exists w xs w', run example_platform (start_world keeping []) pending_calls = Ok (w, xs) /\ pending_of w 0 = [a0] /\
  step example_platform w (OpDestroy 0 late) = Ok (w', Done) /\
  exists R', nth_error (w_regions w') 0 = Some R' /\ List.length (ds_to_vector (r_dataset R')) = 1%nat.
Proof. exact destroyed_run. Qed.
