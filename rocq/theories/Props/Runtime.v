(** Properties C30 to C37, C51 and C65: regions, contexts and the collection of measurements. *)
From Coq Require Import ZArith Bool Ascii String Lia List Permutation.
From Verif Require Import Model.Base Model.Float Model.Decimal Model.DatasetM Model.ParserM Model.ModelStringM Model.PolicyModelsM Model.ConfigM Model.RuntimeM
  Spec.DatasetSpec Spec.DatasetClient Spec.RuntimeSpec Spec.FileNames
  Proofs.RuntimeRecords Proofs.RuntimeClient Proofs.RuntimeCurrent Proofs.RuntimeProgress Proofs.RuntimeCreate
  Proofs.RuntimeUntouched Proofs.RuntimeTraining Proofs.RuntimeStored Proofs.RuntimeExamples.
Import ListNotations.
Open Scope Z_scope.

(** The measurements [log] are the ones taken, call by call, each with the contents of its context ([records]); their
    number is the execution counter; no asynchronous execution is measured twice; the contexts ended on a region are
    those measured for it and those pending; a pending context had not completed whenever the region looked at it. *)
Theorem C30_recorded_exactly_once : forall P c files os w xs,
  run P (start_world c files) os = Ok (w, xs) -> forallb explicit os = true ->
  exists log, records P (start_world c files) (combine os xs) log w /\
    w_executions w = Z.of_nat (List.length log) mod 2 ^ 64 /\
    NoDup (filter on_heap (map e_context log)) /\
    (forall r, Permutation (ended_on (combine os xs) r) (map e_context (taken_for r log) ++ pending_of w r)) /\
    (forall r p, In p (pending_of w r) -> on_heap p = true /\
       forall h1 o x h2, combine os xs = h1 ++ (o, x) :: h2 -> looks_at r o = true -> In p (ended_on (h1 ++ [(o, x)]) r) ->
         device_of (h1 ++ [(o, x)]) p = (true, None)) /\
    (forall r waits x, In (OpDestroy r waits, x) (combine os xs) -> pending_of w r = []).
Proof. exact recorded_once. Qed.
Print Assumptions C30_recorded_exactly_once.

(** Calls without a context act as the same calls with one. *)
Theorem C30_context_free_calls : forall P os w w' xs,
  run P w os = Ok (w', xs) -> forallb (fun o => negb (ends_process o)) os = true ->
  exists os', Forall2 names os os' /\ forallb explicit os' = true /\ run P w os' = Ok (w', xs).
Proof. exact named_run. Qed.
Print Assumptions C30_context_free_calls.

(** The end of the process destroys every registered region. *)
Theorem C30_shutdown_destroys : forall P w waits w', step P w (OpShutdown waits) = Ok (w', Done) ->
  exists files, run P (set_files w files) (map (fun r => OpDestroy r (waits r)) (map snd (w_registry w))) =
    Ok (w', repeat Done (List.length (w_registry w))).
Proof. exact shutdown_run. Qed.
Print Assumptions C30_shutdown_destroys.

(** Three executions end, one of them is still pending, the others are in the data set. *)
Example C30_nonvacuous : exists w xs,
  run example_platform (start_world (settings "Static,policy=0" 0 0 0) []) two_async = Ok (w, xs) /\
  forallb explicit two_async = true /\ ended_on (combine two_async xs) 0 = [a0; a1; s0] /\ pending_of w 0 = [a0] /\
  w_executions w = 2 /\
  match nth_error (w_regions w) 0 with Some R => ds_size (r_dataset R) = 2 | None => False end.
Proof. exact two_async_run. Qed.

(** A client begins, sets features, asks for the policy and ends, one execution of the region at a time ([followed]);
    nothing was loaded into the region. Its data set is the result of inserting, in order, the features, returned
    policy and measured time of its executions: of those up to the moment it stops keeping them, of all if it still
    does. *)
Theorem C31_client_data : forall P c files os w xs r R ph ms,
  run P (start_world c files) os = Ok (w, xs) -> forallb explicit os = true ->
  followed r (combine os xs) = Some (ph, ms) -> nth_error (w_regions w) r = Some R ->
  (forall nf nm np mt info yaml init, In (OpRegion nf nm np mt info yaml init, GotRegion r) (combine os xs) -> starts_empty c info) ->
  exists log k, records P (start_world c files) (combine os xs) log w /\ map e_meas (taken_for r log) = ms /\
    kept_for r log = firstn k ms /\ insert_all [] (firstn k ms) = Ok (r_dataset R) /\
    (k <= List.length ms)%nat /\ (keeps c R = true -> k = List.length ms).
Proof. exact client_dataset. Qed.
Print Assumptions C31_client_data.

(** The next call of such a client is defined. *)
Theorem C31_calls_defined : forall P c files os w xs r R ph ms,
  run P (start_world c files) os = Ok (w, xs) -> forallb explicit os = true ->
  followed r (combine os xs) = Some (ph, ms) -> nth_error (w_regions w) r = Some R -> r_alive R = true ->
  match ph with
  | Idle => count_begins (combine os xs) r < 2 ^ 31 - 1 -> forall now,
      (exists w', step P w (OpBegin r false now) = Ok (w', GotContext (r, Sync))) /\
      forall fs, exists w', step P w (OpBeginFeatures r fs now) = Ok (w', GotContext (r, Sync))
  | Running _ fs chosen =>
      (forall x, exists w', step P w (OpSetFeature r (Some (r, Sync)) x) = Ok (w', Done)) /\
      (forall D choice m, cf_trace_policy (w_config w) = 0 -> m_get_index P D (r_model R) fs = Ok (choice, m) ->
         exists w', step P w (OpGetPolicy r (Some (r, Sync)) D) = Ok (w', GotPolicy choice)) /\
      (nan_free fs = true -> m_trainable (r_model R) = false \/
           (cf_global_period (w_config w) = 0 /\ cf_region_period (w_config w) = 0 /\ r_min_training R <= 0) ->
         forall now early, exists w', step P w (OpEnd r (Some (r, Sync)) now early) = Ok (w', Done))
  end.
Proof. exact calls_defined. Qed.
Print Assumptions C31_calls_defined.

(** Two regions, one execution within another; region 0 has two measurements and is executing. *)
Example C31_nonvacuous : exists w xs,
  run example_platform (start_world (settings "Static,policy=0" 0 0 0) []) client = Ok (w, xs) /\
  forallb explicit client = true /\ running_with 2 (followed 0 (combine client xs)) = true /\ idle_with 1 (followed 1 (combine client xs)) = true /\
  (forall r nf nm np mt info yaml init, In (OpRegion nf nm np mt info yaml init, GotRegion r) (combine client xs) ->
     starts_empty (settings "Static,policy=0" 0 0 0) info) /\
  match nth_error (w_regions w) 0 with
  | Some R => keeps (w_config w) R = true /\ r_alive R = true /\ ds_size (r_dataset R) = 2
  | None => False
  end.
Proof. exact client_run. Qed.

(** No policy is asked for from [os1] on: the measurement has the policy that [os1] left. *)
Theorem C32_stale_policy_recorded : forall P c files os1 os2 r now early w1 xs1 w xs,
  run P (start_world c files) os1 = Ok (w1, xs1) ->
  run P (start_world c files) (os1 ++ os2 ++ [OpEnd r (Some (r, Sync)) now early]) = Ok (w, xs) ->
  forallb explicit (os1 ++ os2) = true ->
  forallb (fun o => negb (match o with OpGetPolicy _ (Some q) _ => ctx_eqb q (r, Sync) | _ => false end)) os2 = true ->
  exists log e, records P (start_world c files) (combine (os1 ++ os2 ++ [OpEnd r (Some (r, Sync)) now early]) xs) (log ++ [e]) w /\
    e_region e = r /\ e_context e = (r, Sync) /\ e_policy e = policy_of (combine os1 xs1) (r, Sync).
Proof. exact stale_policy. Qed.
Print Assumptions C32_stale_policy_recorded.

(** The third execution asks for no policy and is recorded under policy 1, that of the second. *)
Example C32_nonvacuous : exists w1 xs1 w xs,
  run example_platform (start_world (settings "Static,policy=0" 0 0 1) []) forgotten_before = Ok (w1, xs1) /\
  run example_platform (start_world (settings "Static,policy=0" 0 0 1) []) (forgotten_before ++ [start 0 14] ++ [finish s0 19]) = Ok (w, xs) /\
  forallb explicit (forgotten_before ++ [start 0 14]) = true /\ policy_of (combine forgotten_before xs1) s0 = 1.
Proof. exact forgotten_run. Qed.

(** Once a call on the region has collected a measurement, and until the region is begun again, every call on it
    without a context is undefined. *)
Theorem C33_current_context_lost : forall P c files os1 w1 xs1 o w2 x os2 w3 xs3 r call,
  run P (start_world c files) os1 = Ok (w1, xs1) -> step P w1 o = Ok (w2, x) -> run P w2 os2 = Ok (w3, xs3) ->
  forallb (fun o => negb (ends_process o)) (os1 ++ o :: os2) = true ->
  collects_on r o = true -> w_executions w2 <> w_executions w1 -> Forall (fun o => begins o <> Some r) os2 ->
  context_free r call = true -> step P w3 call = UB.
Proof. exact current_lost. Qed.
Print Assumptions C33_current_context_lost.

(** An execution is in flight, train collects an asynchronous one of the region, and ending the first is undefined. *)
Theorem C33_train_breaks_execution_in_flight : exists w xs,
  run example_platform (start_world (settings "Static,policy=0" 0 0 0) []) (in_flight ++ [OpTrain 0 0 true false]) = Ok (w, xs) /\
  step example_platform w (OpEnd 0 None (12, 0) None) = UB.
Proof. exact in_flight_run. Qed.
Print Assumptions C33_train_breaks_execution_in_flight.

(** It is defined without the call to train. *)
Example C33_undisturbed : exists w xs,
  run example_platform (start_world (settings "Static,policy=0" 0 0 0) []) (in_flight ++ [OpEnd 0 None (12, 0) None]) = Ok (w, xs) /\ w_executions w = 1.
Proof. exact in_flight_undisturbed. Qed.

(** Begin, begin, end, end of one region: the second end is undefined. *)
Theorem C33_nested_executions : exists w xs,
  run example_platform (start_world (settings "Static,policy=0" 0 0 0) []) nested = Ok (w, xs) /\
  step example_platform w (OpEnd 0 None (13, 0) None) = UB.
Proof. exact nested_run. Qed.
Print Assumptions C33_nested_executions.

(** The context a begin call returns has the number of earlier begin calls on its region as index. *)
Theorem C35_begin_index : forall P c files os w xs o r w' p,
  run P (start_world c files) os = Ok (w, xs) -> forallb explicit os = true -> begins o = Some r -> step P w o = Ok (w', GotContext p) ->
  exists x, get_context w' p = Ok x /\ c_idx x = count_begins (combine os xs) r.
Proof. exact begin_index. Qed.
Print Assumptions C35_begin_index.

(** After 2^31 - 1 begin calls on a region the next overflows an int. *)
Theorem C35_index_overflows : forall P c files os w xs o r,
  run P (start_world c files) os = Ok (w, xs) -> forallb explicit os = true -> begins o = Some r ->
  count_begins (combine os xs) r = 2 ^ 31 - 1 -> step P w o = UB.
Proof. exact begin_overflows. Qed.
Print Assumptions C35_index_overflows.

(** The report written at the end of the process lists every registered region with its number of begin calls. *)
Theorem C35_report : forall P c files os w xs waits w',
  run P (start_world c files) os = Ok (w, xs) -> forallb explicit os = true -> step P w (OpShutdown waits) = Ok (w', Done) ->
  exists fs, run P (set_files w fs) (map (fun r => OpDestroy r (waits r)) (map snd (w_registry w))) = Ok (w', repeat Done (List.length (w_registry w))) /\
    fs = if truthy (cf_exec_info c)
         then file_write (in_dir (cf_output_dir c) ($"apollo_exec_info.csv"))
           (List.concat (map (fun x => fst x ++ $", " ++ print_Z (count_begins (combine os xs) (snd x)) ++ [nl]) (w_registry w))) (w_files w)
         else w_files w.
Proof. exact exec_info. Qed.
Print Assumptions C35_report.

(** The trace of a region: a header, then a line for each measurement taken for it, in order. *)
Theorem C65_trace : forall P c files os w xs r R,
  run P (start_world c files) os = Ok (w, xs) -> forallb explicit os = true -> nth_error (w_regions w) r = Some R ->
  exists log, records P (start_world c files) (combine os xs) log w /\
    r_trace R = if truthy (cf_trace_csv c)
                then spaced (trace_columns (Z.to_nat (r_num_features R))) ++ [nl] ++
                     List.concat (map (fun e => trace_line 0 (m_name (r_model R)) (r_name R) e) (taken_for r log))
                else [].
Proof. exact trace_rows. Qed.
Print Assumptions C65_trace.

(** Three begin calls, of which two were asynchronous, one of these pending to the end. *)
Example C35_C65_nonvacuous : exists w xs w', run example_platform (start_world reporting []) two_async = Ok (w, xs) /\
  step example_platform w (OpShutdown (fun _ => [[(a0, f32_of_Z 1000)]])) = Ok (w', Done) /\
  file_find ($".apollo/apollo_exec_info.csv") (w_files w') = Some ($"r, 3" ++ [nl]) /\
  match nth_error (w_regions w') 0 with
  | Some R => r_trace R = $"rankid training region idx f0 policy xtime" ++ [nl] ++ $"0 DecisionTree r 2 7 0 9" ++ [nl] ++
      $"0 DecisionTree r 1 4 0 2" ++ [nl] ++ $"0 DecisionTree r 0 3 1 1" ++ [nl]
  | None => False
  end.
Proof. exact report_run. Qed.

(** The end of a synchronous execution: which models are trained, on what data; pending executions stay pending. *)
Theorem C34_end_trains : forall P c files os w xs r now early w' y,
  run P (start_world c files) os = Ok (w, xs) -> forallb explicit os = true -> step P w (OpEnd r (Some (r, Sync)) now early) = Ok (w', y) ->
  exists R R', nth_error (w_regions w) r = Some R /\ nth_error (w_regions w') r = Some R' /\ List.length (w_regions w') = List.length (w_regions w) /\
    forall i Ri, nth_error (w_regions w) i = Some Ri -> exists Ri', nth_error (w_regions w') i = Some Ri' /\ r_pending Ri' = r_pending Ri /\
      auto_trained P ((w_executions w + 1) mod 2 ^ 64) (count_begins (combine os xs) r) w w' r R R' i Ri Ri'.
Proof. exact end_trains. Qed.
Print Assumptions C34_end_trains.

(** The same whenever any context is collected. *)
Theorem C34_collected_trains : forall P c files os w xs r p x w',
  run P (start_world c files) os = Ok (w, xs) -> forallb explicit os = true -> collect_context P w r p x = Ok w' ->
  exists R R', nth_error (w_regions w) r = Some R /\ nth_error (w_regions w') r = Some R' /\ List.length (w_regions w') = List.length (w_regions w) /\
    forall i Ri, nth_error (w_regions w) i = Some Ri -> exists Ri', nth_error (w_regions w') i = Some Ri' /\ r_pending Ri' = r_pending Ri /\
      auto_trained P ((w_executions w + 1) mod 2 ^ 64) (count_begins (combine os xs) r) w w' r R R' i Ri Ri'.
Proof. exact collected_trains. Qed.
Print Assumptions C34_collected_trains.

(** Global period 2: the second execution, of region 1, trains both regions. *)
Example C34_nonvacuous : exists w xs w' y,
  run example_platform (start_world (settings "Static,policy=0" 2 0 0) []) before_training = Ok (w, xs) /\ forallb explicit before_training = true /\
  step example_platform w (OpEnd 1 (Some s1) (15, 0) None) = Ok (w', y) /\
  global_due (w_config w) ((w_executions w + 1) mod 2 ^ 64) /\ map snd (w_registry w) = [1; 0]%nat /\
  trainable_b w 0 = true /\ trainable_b w 1 = true /\ trainable_b w' 0 = false /\ trainable_b w' 1 = false.
Proof. exact before_training_run. Qed.

(** Regions have the first 63 characters of the names they were created with, and the registry holds the first of each
    name. *)
Theorem C36_registry : forall P c files os w xs,
  run P (start_world c files) os = Ok (w, xs) -> forallb explicit os = true ->
  (forall n r, In (n, r) (w_registry w) <-> first_named (region_names w) n r) /\
  region_names w = created_names os.
Proof. exact registered. Qed.
Print Assumptions C36_registry.

(** Calls not made on a region that is not the first of its name, Apollo::train and the end of the process included, do
    not register it and leave its model, data set and pending executions as they are, and do not destroy it. *)
Theorem C36_not_trained_not_persisted : forall P c files os w xs r r' R R0 os' w' xs',
  run P (start_world c files) os = Ok (w, xs) -> forallb explicit os = true ->
  nth_error (w_regions w) r = Some R -> nth_error (w_regions w) r' = Some R0 -> (r' < r)%nat -> r_name R0 = r_name R ->
  Forall (fun o => made_on o <> Some r) os' -> run P w os' = Ok (w', xs') ->
  ~ In r (map snd (w_registry w')) /\ exists R', nth_error (w_regions w') r = Some R' /\ as_before R R'.
Proof. exact unregistered_untouched. Qed.
Print Assumptions C36_not_trained_not_persisted.

(** Creating it changes neither the registry nor, when it loads no data, the other regions. *)
Theorem C36_first_unaffected : forall P c files os w xs nf nm np mt info yaml init w' r,
  run P (start_world c files) os = Ok (w, xs) -> forallb explicit os = true ->
  In (firstn 63 (cstr nm)) (region_names w) -> step P w (OpRegion nf nm np mt info yaml init) = Ok (w', GotRegion r) ->
  w_registry w' = w_registry w /\ ~ In r (map snd (w_registry w')) /\
  (starts_empty c info -> exists R, w_regions w' = w_regions w ++ [R] /\ w_files w' = w_files w).
Proof. exact second_of_a_name. Qed.
Print Assumptions C36_first_unaffected.

(** Two names that differ in the 64th character: Apollo::train trains only the first region. *)
Example C36_nonvacuous : exists w xs w' y,
  run example_platform (start_world (settings "Static,policy=0" 0 0 0) []) same_names = Ok (w, xs) /\ forallb explicit same_names = true /\
  step example_platform w (OpTrainAll 0 true) = Ok (w', y) /\ map snd (w_registry w) = [0%nat] /\
  (exists R R0, nth_error (w_regions w) 1 = Some R /\ nth_error (w_regions w) 0 = Some R0 /\ r_name R0 = r_name R /\ ds_size (r_dataset R) = 1) /\
  trainable_b w' 0 = false /\ trainable_b w' 1 = true.
Proof. exact same_names_run. Qed.

(** After the destruction of any region the global period is 0. *)
Theorem C37_period_off : forall P c files os w xs r ws x,
  run P (start_world c files) os = Ok (w, xs) -> forallb explicit os = true -> In (OpDestroy r ws, x) (combine os xs) ->
  cf_global_period (w_config w) = 0.
Proof. exact period_off. Qed.
Print Assumptions C37_period_off.

(** A destroyed region that was registered still is, and neither Apollo::train nor the end of the process succeeds. *)
Theorem C37_dangling_registration : forall P c files os w xs r ws x n,
  run P (start_world c files) os = Ok (w, xs) -> forallb explicit os = true -> In (OpDestroy r ws, x) (combine os xs) ->
  first_named (created_names os) n r ->
  In (n, r) (w_registry w) /\
  (forall st collect w' y, step P w (OpTrainAll st collect) <> Ok (w', y)) /\
  (forall waits w' y, step P w (OpShutdown waits) <> Ok (w', y)).
Proof. exact dangling. Qed.
Print Assumptions C37_dangling_registration.

(** Unless something else fails first, they use it: undefined behaviour. *)
Theorem C37_use_after_free : forall P c files os w xs r ws x pre post n,
  run P (start_world c files) os = Ok (w, xs) -> forallb explicit os = true -> In (OpDestroy r ws, x) (combine os xs) ->
  w_registry w = pre ++ (n, r) :: post ->
  (forall st collect w' ys, cf_collective c = 0 -> cf_single_model c = 0 ->
     run P w (map (fun r => OpTrain r st collect false) (map snd pre)) = Ok (w', ys) -> step P w (OpTrainAll st collect) = UB) /\
  (forall waits w' ys, cf_exec_info c = 0 ->
     run P w (map (fun r => OpDestroy r (waits r)) (map snd pre)) = Ok (w', ys) -> step P w (OpShutdown waits) = UB) /\
  (forall waits, cf_exec_info c <> 0 -> step P w (OpShutdown waits) = UB).
Proof. exact dangling_use. Qed.
Print Assumptions C37_use_after_free.

(** Global period 1: an execution after the destruction trains nothing, and Apollo::train is undefined. *)
Example C37_nonvacuous : exists w xs,
  run example_platform (start_world (settings "Static,policy=0" 1 0 0) []) one_destroyed = Ok (w, xs) /\ forallb explicit one_destroyed = true /\
  w_executions w = 1 /\ trainable_b w 1 = true /\ step example_platform w (OpTrainAll 0 true) = UB.
Proof. exact one_destroyed_run. Qed.

(** ** C51 *)

(** For a model that can be stored, the latest file is the one the load parameter opens, for every rank and directories. *)
Theorem C51_same_file : forall P c files os w xs r R text,
  run P (start_world c files) os = Ok (w, xs) -> forallb explicit os = true -> nth_error (w_regions w) r = Some R ->
  m_store (r_model R) = Ok (Some text) -> forall c' rank,
  model_latest_file c' rank (m_name (r_model R)) (r_name R) = model_load_file c' rank (r_model_name R) (r_name R).
Proof. exact stored_path. Qed.
Print Assumptions C51_same_file.

(** After training with data and storing on, that file holds the trained model, and loading a model of that kind for a
    region of that name, in this or a later process with the same directories, reads it. *)
Theorem C51_stored_then_loaded : forall P c files os w xs r st collect force w' y R' text,
  run P (start_world c files) os = Ok (w, xs) -> forallb explicit os = true ->
  step P w (OpTrain r st collect force) = Ok (w', y) -> nth_error (w_regions w') r = Some R' ->
  force = true \/ (exists R, nth_error (w_regions w) r = Some R /\ m_trainable (r_model R) = true) ->
  0 < ds_size (r_dataset R') -> cf_store_models c <> 0 -> m_store (r_model R') = Ok (Some text) ->
  file_find (newest_file c 0 (r_model_name R') (r_name R')) (w_files w') = Some text /\
  forall w2 ps m, w_files w2 = w_files w' -> cf_output_dir (w_config w2) = cf_output_dir c -> cf_models_dir (w_config w2) = cf_models_dir c -> w_rank w2 = 0 ->
    param_find ($"load") ps = Some [] -> load_models w2 (r_name R') [] (r_model_name R') ps m = m_load m (Some text).
Proof. exact stored_where_loaded. Qed.
Print Assumptions C51_stored_then_loaded.

(** A decision tree is trained and stored; the next process loads it. *)
Example C51_nonvacuous : exists w xs w' y w2 xs2,
  run example_platform (start_world storing []) before_storing = Ok (w, xs) /\ forallb explicit before_storing = true /\
  step example_platform w (OpTrain 0 0 true false) = Ok (w', y) /\ trainable_b w 0 = true /\
  (exists R' text, nth_error (w_regions w') 0 = Some R' /\ 0 < ds_size (r_dataset R') /\ m_store (r_model R') = Ok (Some text)) /\
  run example_platform (start_world storing (w_files w')) [make "r" 2 0 "DecisionTree,load"] = Ok (w2, xs2) /\ trainable_b w2 0 = false.
Proof. exact storing_run. Qed.
