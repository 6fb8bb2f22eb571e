(** Properties C53, C54, C55 and C67-C75: the Kokkos connector. *)
From Coq Require Import ZArith Bool Ascii String Reals List.
From Flocq Require Import Core BinarySingleNaN.
From Verif Require Import Model.Base Model.Float Model.DatasetM Model.ModelStringM Model.PolicyModelsM Model.ConfigM Model.RuntimeM Model.KokkosM
  Spec.PolicyModelsSpec Spec.StartupSpec Spec.RuntimeSpec Spec.KokkosSpec Proofs.RuntimeExamples Proofs.RuntimePolicyExamples
  Proofs.KokkosCandidates Proofs.KokkosRuns Proofs.KokkosClient Proofs.KokkosTrain Proofs.KokkosStored Proofs.KokkosMeasured Proofs.KokkosDefects Proofs.KokkosDoubles Proofs.KokkosExamples.
Import ListNotations.
Open Scope Z_scope.

(** ** C53 *)

(** The policies of a problem and the choices of one candidate for each variable correspond one to one. *)
Theorem C53_choices : forall vars, Forall complete_variable vars -> product (map v_size vars) <= int_max ->
  choice_space vars 1 = Ok (product (map v_size vars)) /\
  (forall p, 0 <= p < product (map v_size vars) -> exists ks vs, in_sizes ks (map v_size vars) /\ decode vars p = Ok vs /\ chosen vars ks vs) /\
  (forall ks, in_sizes ks (map v_size vars) -> exists p, 0 <= p < product (map v_size vars) /\
     (exists vs, decode vars p = Ok vs /\ chosen vars ks vs) /\ p = number ks (map v_size vars)) /\
  (forall ks ks', in_sizes ks (map v_size vars) -> in_sizes ks' (map v_size vars) ->
     number ks (map v_size vars) = number ks' (map v_size vars) -> ks = ks').
Proof. exact choices. Qed.
Print Assumptions C53_choices.

(** In a run, the values a request writes are the choice whose number is the policy the runtime returned. *)
Theorem C53_requests : forall P hash c files flush os K vss,
  krun P hash (started c files flush) os = Ok (K, vss) -> orderly os -> Forall fair_request os -> starts_fresh c ->
  exists hs, List.length hs = List.length os /\
    (forall i o l vs, nth_error os i = Some o -> nth_error hs i = Some l -> nth_error vss i = Some vs -> performs hash flush (firstn i os) o l vs) /\
    run P (start_world c files) (map fst (concat hs)) = Ok (k_world K, map snd (concat hs)) /\
    forall i context cs tuning now D init vs l vars,
      nth_error os i = Some (KRequest context cs tuning now D init) -> tuning <> [] -> nth_error vss i = Some vs -> nth_error hs i = Some l ->
      all_declared (firstn i os) tuning vars -> Forall complete_variable vars -> product (map v_size vars) <= int_max ->
      exists r ks, in_sizes ks (map v_size vars) /\ chosen vars ks vs /\
        In (OpGetPolicy r (Some (r, Sync)) D, GotPolicy (number ks (map v_size vars))) l.
Proof. exact requests. Qed.
Print Assumptions C53_requests.

(** Three requests for a tile size (8, 16, 32) and an unrolling factor (1, 2). *)
Example C53_nonvacuous : exists K vss, krun example_platform example_hash (started forest_settings [] 3) kernel_calls = Ok (K, vss) /\
  orderly kernel_calls /\ Forall fair_request kernel_calls /\ starts_fresh forest_settings /\
  all_declared kernel_calls [2; 3] [tile; unroll] /\ Forall complete_variable [tile; unroll] /\
  vss = map (map VInt) [[]; []; []; [8; 1]; []; [16; 1]; []; [32; 1]].
Proof.
  destruct kernel_run as (K & vss & E & V & _). exists K, vss. split; [exact E|]. split; [exact kernel_orderly|]. split; [exact kernel_fair|]. split; [exact forest_fresh|].
  split; [exact kernel_declared|]. split; [exact complete_kernel|exact V].
Qed.

(** ** C54 *)

(** A range closed below: the candidates are the declared members moved up by a step. *)
Theorem C54_closed_lower : forall lower upper step (open_upper : bool),
  0 < step -> - 2 ^ 63 <= lower -> upper + step < 2 ^ 63 -> upper - lower + step < 2 ^ 63 - 1 -> (upper - lower) / step < int_max ->
  member lower upper step false open_upper lower ->
  exists vs, associate_candidates (CIntRange lower upper step false open_upper) = Ok (Z.of_nat (List.length vs), map VInt vs) /\ NoDup vs /\
    (forall v, In v vs <-> member lower upper step false open_upper (v - step)) /\
    ~ In lower vs /\ exists v, In v vs /\ (if open_upper then upper <= v else upper < v).
Proof. exact closed_lower. Qed.
Print Assumptions C54_closed_lower.

(** A range open below has its lower bound as a candidate. *)
Theorem C54_open_lower : forall lower upper step (open_upper : bool),
  0 < step -> - 2 ^ 63 <= lower -> upper + step < 2 ^ 63 -> upper - lower + step < 2 ^ 63 - 1 -> (upper - lower) / step < int_max ->
  (if open_upper then lower + 1 < upper else lower < upper) ->
  exists vs, associate_candidates (CIntRange lower upper step true open_upper) = Ok (Z.of_nat (List.length vs), map VInt vs) /\ NoDup vs /\
    In lower vs /\ ~ member lower upper step true open_upper lower /\
    (forall v, In v vs -> v = lower \/ member lower upper step true open_upper v) /\
    ((step | (if open_upper then upper - 1 else upper) - lower) -> forall v, member lower upper step true open_upper v ->
        (if open_upper then upper - 1 else upper) = v -> ~ In v vs).
Proof. exact open_lower. Qed.
Print Assumptions C54_open_lower.

(** 1 to 4 in steps of 1. *)
Example C54_nonvacuous : member 1 4 1 false false 1 /\ associate_candidates (CIntRange 1 4 1 false false) = Ok (4, map VInt [2; 3; 4; 5]) /\
  associate_candidates (CIntRange 1 4 1 true true) = Ok (2, map VInt [1; 2]).
Proof. split; [split; [exists 0; reflexivity|split; discriminate]|]. split; reflexivity. Qed.

(** ** C55 *)

(** The first request of a problem whose model file is there does not return. *)
Theorem C55_known_aborts : forall P hash c files flush os K vss context cs tuning now D init vars name,
  krun P hash (started c files flush) os = Ok (K, vss) -> tuning <> [] -> ~ In (map fst cs ++ tuning) (problems os) ->
  all_declared os tuning vars -> Forall complete_variable vars -> product (map v_size vars) < 2 ^ 63 ->
  (List.length cs + List.length tuning <= 50)%nat -> named os (map fst cs ++ tuning) name ->
  file_find (stored_model_file name) (w_files (k_world K)) <> None ->
  kstep P hash K (KRequest context cs tuning now D init) = Abort.
Proof. exact known_aborts. Qed.
Print Assumptions C55_known_aborts.

(** A flush writes the file for every forest it trains. *)
Theorem C55_flush_stores : forall P hash c files flush os K vss context now K' vs i R R',
  krun P hash (started c files flush) os = Ok (K, vss) -> kstep P hash K (KEnd context now) = Ok (K', vs) ->
  flushes flush os (KEnd context now) -> cf_single_model c = 0 -> no_periods c -> stores_there c ->
  nth_error (w_regions (k_world K)) i = Some R -> first_named (region_names (k_world K)) (r_name R) i ->
  m_trainable (r_model R) = true -> m_name (r_model R) = $"RandomForest" ->
  nth_error (w_regions (k_world K')) i = Some R' -> 0 < ds_size (r_dataset R') ->
  file_find (stored_model_file (r_name R)) (w_files (k_world K')) <> None.
Proof. exact flush_stores. Qed.
Print Assumptions C55_flush_stores.

(** So a process started with the files the first left aborts when it meets the problem. *)
Theorem C55_later_run_aborts : forall P hash c files flush os K vss context now K' vs i R R',
  krun P hash (started c files flush) os = Ok (K, vss) -> kstep P hash K (KEnd context now) = Ok (K', vs) ->
  flushes flush os (KEnd context now) -> cf_single_model c = 0 -> no_periods c -> stores_there c ->
  nth_error (w_regions (k_world K)) i = Some R -> first_named (region_names (k_world K)) (r_name R) i ->
  m_trainable (r_model R) = true -> m_name (r_model R) = $"RandomForest" ->
  nth_error (w_regions (k_world K')) i = Some R' -> 0 < ds_size (r_dataset R') ->
  forall c2 flush2 os2 K2 vss2 context2 cs tuning now2 D init vars,
    krun P hash (started c2 (w_files (k_world K')) flush2) os2 = Ok (K2, vss2) -> tuning <> [] -> ~ In (map fst cs ++ tuning) (problems os2) ->
    all_declared os2 tuning vars -> Forall complete_variable vars -> product (map v_size vars) < 2 ^ 63 ->
    (List.length cs + List.length tuning <= 50)%nat -> named os2 (map fst cs ++ tuning) (r_name R) ->
    kstep P hash K2 (KRequest context2 cs tuning now2 D init) = Abort.
Proof. exact later_run_aborts. Qed.
Print Assumptions C55_later_run_aborts.

(** The example's third context ends in a flush; a second process with the same variables aborts. *)
Example C55_nonvacuous : exists K vss K' K2 vss2, krun example_platform example_hash (started forest_settings [] 3) kernel_calls = Ok (K, vss) /\
  kstep example_platform example_hash K (end_kernel 12 9) = Ok (K', []) /\ flushes 3 kernel_calls (end_kernel 12 9) /\
  no_periods forest_settings /\ stores_there forest_settings /\
  krun example_platform example_hash (started forest_settings (w_files (k_world K')) 3) declarations = Ok (K2, vss2) /\
  kstep example_platform example_hash K2 (ask_kernel 10 (VInt 5) 0) = Abort.
Proof.
  destruct flush_run as (K & vss & K' & R & R' & E & E2 & FL & ER & FN & T & NM & RN & ER' & SZ & _ & FF).
  destruct (declarations_run (w_files (k_world K')) 3) as (K2 & vss2 & E3 & F2). exists K, vss, K', K2, vss2.
  split; [exact E|]. split; [exact E2|]. split; [exact FL|]. split; [split; reflexivity|]. split; [split; [discriminate|split; reflexivity]|]. split; [exact E3|].
  refine (known_aborts example_platform example_hash forest_settings _ 3 declarations K2 vss2 10 [(1, VInt 5)] [2; 3] (0, 0) fair_draws no_init [tile; unroll] kernel_name E3 _ _ _ complete_kernel _ _ kernel_named _).
  - discriminate.
  - intros [].
  - repeat constructor.
  - reflexivity.
  - repeat constructor.
  - rewrite F2. exact FF.
Qed.

(** ** C67 *)

(** Every run of the connector is a run of the runtime: each call leads to the calls that [performs] describes. *)
Theorem C67_runs : forall P hash c files flush os K vss, krun P hash (started c files flush) os = Ok (K, vss) ->
  exists hs, List.length hs = List.length os /\ List.length vss = List.length os /\
    (forall i o l vs, nth_error os i = Some o -> nth_error hs i = Some l -> nth_error vss i = Some vs -> performs hash flush (firstn i os) o l vs) /\
    run P (start_world c files) (map fst (concat hs)) = Ok (k_world K, map snd (concat hs)).
Proof. exact kokkos_run. Qed.
Print Assumptions C67_runs.

Example C67_nonvacuous : exists K vss, krun example_platform example_hash (started forest_settings [] 3) kernel_calls = Ok (K, vss) /\ List.length (w_regions (k_world K)) = 1%nat.
Proof. destruct kernel_run as (K & vss & E & _ & R & _ & _ & _ & _ & _ & L). exists K, vss. split; [exact E|exact L]. Qed.

(** ** C68 *)

(** A flush trains each problem still exploring with its data, the one just ended included, unless its name is taken by
    an earlier problem; nothing else changes a model. *)
Theorem C68_flush_trains : forall P hash c files flush os K vss context now K' vs,
  krun P hash (started c files flush) os = Ok (K, vss) -> kstep P hash K (KEnd context now) = Ok (K', vs) ->
  flushes flush os (KEnd context now) -> cf_single_model c = 0 -> no_periods c ->
  List.length (w_regions (k_world K')) = List.length (w_regions (k_world K)) /\
  forall i R, nth_error (w_regions (k_world K)) i = Some R -> exists R', nth_error (w_regions (k_world K')) i = Some R' /\
    (first_named (region_names (k_world K)) (r_name R) i /\ m_trainable (r_model R) = true -> trained_with P (r_model R) (r_dataset R') (r_model R')) /\
    (~ (first_named (region_names (k_world K)) (r_name R) i /\ m_trainable (r_model R) = true) -> r_model R' = r_model R).
Proof. exact flush_trains. Qed.
Print Assumptions C68_flush_trains.

Example C68_nonvacuous : exists K vss K' R R', krun example_platform example_hash (started forest_settings [] 3) kernel_calls = Ok (K, vss) /\
  kstep example_platform example_hash K (end_kernel 12 9) = Ok (K', []) /\ flushes 3 kernel_calls (end_kernel 12 9) /\ no_periods forest_settings /\
  nth_error (w_regions (k_world K)) 0 = Some R /\ first_named (region_names (k_world K)) (r_name R) 0 /\ m_trainable (r_model R) = true /\
  nth_error (w_regions (k_world K')) 0 = Some R' /\ ds_size (r_dataset R') = 3 /\ m_trainable (r_model R') = false.
Proof.
  destruct flush_run as (K & vss & K' & R & R' & E & E2 & FL & ER & FN & T & NM & RN & ER' & SZ & NT & _). exists K, vss, K', R, R'.
  split; [exact E|]. split; [exact E2|]. split; [exact FL|]. split; [split; reflexivity|]. split; [exact ER|]. split; [exact FN|]. split; [exact T|]. split; [exact ER'|]. split; [exact SZ|exact NT].
Qed.

(** ** C69 *)

(** The end of a context records, for its problem, the features and the policy of the last request of the problem and
    the time since that request, whichever context it was made for; but if a context of the problem was ended after that
    request already, no features. *)
Theorem C69_measured : forall P hash c files flush os K vss context now K' vs' ids,
  krun P hash (started c files flush) os = Ok (K, vss) -> kstep P hash K (KEnd context now) = Ok (K', vs') ->
  open_problem os context = Some ids ->
  exists i context' cs tuning start D init vs r xs policy vars,
    last_request os ids i /\ nth_error os i = Some (KRequest context' cs tuning start D init) /\ nth_error vss i = Some vs /\
    place ids (problems os) = Some r /\ Forall2 (feature_of hash) (map snd cs) xs /\ all_declared (firstn i os) tuning vars /\ decode vars policy = Ok vs /\
    exists fs, (ended_since os ids i -> fs = []) /\ (~ ended_since os ids i -> fs = xs) /\
    forall j R, nth_error (w_regions (k_world K)) j = Some R -> exists R', nth_error (w_regions (k_world K')) j = Some R' /\
      if Nat.eqb j r && keeps c R then ds_insert (r_dataset R) fs policy (sub64 (clock_seconds now) (clock_seconds start)) = Ok (r_dataset R') else r_dataset R' = r_dataset R.
Proof. exact measured. Qed.
Print Assumptions C69_measured.

(** Context 10 starts at 0 and ends at 200; context 11, of the same problem, starts at 100 within it. What the end of
    context 10 records is the request of context 11, from 100 on: with its features when it comes first, without
    features, beside the measurement of context 11, when it comes after the end of context 11. *)
Example C69_nonvacuous : exists K vss K' K2 vss2 K2',
  krun example_platform example_hash (started forest_settings [] 5) crossed_calls = Ok (K, vss) /\
  kstep example_platform example_hash K (end_kernel 10 200) = Ok (K', []) /\ open_problem crossed_calls 10 = Some [1; 2; 3] /\
  last_request crossed_calls [1; 2; 3] 4 /\ ~ ended_since crossed_calls [1; 2; 3] 4 /\ nth_error crossed_calls 4 = Some (ask_kernel 11 (VInt 6) 100) /\
  (exists R, nth_error (w_regions (k_world K')) 0 = Some R /\ ds_size (r_dataset R) = 1) /\
  krun example_platform example_hash (started forest_settings [] 5) nested_calls = Ok (K2, vss2) /\
  kstep example_platform example_hash K2 (end_kernel 10 200) = Ok (K2', []) /\ open_problem nested_calls 10 = Some [1; 2; 3] /\
  last_request nested_calls [1; 2; 3] 4 /\ ended_since nested_calls [1; 2; 3] 4 /\
  exists R, nth_error (w_regions (k_world K2')) 0 = Some R /\ ds_size (r_dataset R) = 2.
Proof.
  destruct crossed_run as (K & vss & K' & A). destruct nested_run as (K2 & vss2 & K2' & B). exists K, vss, K', K2, vss2, K2'. tauto.
Qed.

(** ** C70 *)

(** What the connector starts with whatever the environment says. *)
Theorem C70_settings : forall mpi env mkdir open_trace flush files K, init_library mpi env mkdir open_trace flush files = Ok K ->
  exists c, K = started c files flush /\
    cf_store_models c = 1 /\ cf_retrain c = 0 /\ cf_region_model c = 1 /\ cf_local c = 1 /\ cf_collective c = 0 /\ cf_trace_best c = 1 /\ cf_single_model c = 0 /\
    text_setting env ($"APOLLO_POLICY_MODEL") ($"Static,policy=0") (cf_policy_model c) /\
    text_setting env ($"APOLLO_OUTPUT_DIR") ($".apollo") (cf_output_dir c) /\
    text_setting env ($"APOLLO_MODELS_DIR") ($"models") (cf_models_dir c) /\
    int_setting env ($"APOLLO_GLOBAL_TRAIN_PERIOD") 0 (cf_global_period c) /\
    int_setting env ($"APOLLO_PER_REGION_TRAIN_PERIOD") 0 (cf_region_period c) /\
    int_setting env ($"APOLLO_PERSISTENT_DATASETS") 0 (cf_persistent c).
Proof. exact start_settings. Qed.
Print Assumptions C70_settings.

(** Parsing arguments is undefined unless all three options are among them, spelled as in the code. *)
Theorem C70_all_options_or_undefined : forall args env flush,
  (In ($"--disable_retrain") args /\ In ($"--distributed-training") args /\ In ($"--trace") args) \/ parse_args args env flush = UB.
Proof. exact all_three. Qed.
Print Assumptions C70_all_options_or_undefined.

(** When it is defined, the environment is the same for all arguments. *)
Theorem C70_options_without_effect : forall args env flush env' flush', parse_args args env flush = Ok (env', flush') ->
  forall n, env' n = (if bytes_eqb n ($"APOLLO_POLICY_MODEL") then Some ($"RandomForest,explore=RoundRobin")
                      else if bytes_eqb n ($"APOLLO_REGION_MODEL") || bytes_eqb n ($"APOLLO_STORE_MODELS") then Some ($"1") else env n).
Proof. exact parsed_environment. Qed.
Print Assumptions C70_options_without_effect.

(** Arguments that parse, and arguments as in the help text that do not. *)
Example C70_nonvacuous : (exists env, parse_args parsed_args (fun _ => None) 100 = Ok (env, 7)) /\
  (exists K, init_library false parsed_env (fun _ => true) true 7 [] = Ok K) /\
  parse_args [$"--disable-retrain"; $"--distributed_training"; $"--trace"] (fun _ => None) 100 = UB.
Proof. split; [exact parsed_run|]. split; [exact init_run|reflexivity]. Qed.

(** ** C71 *)

(** With the default policy model, every request gets the first candidates. *)
Theorem C71_first_candidates : forall P hash c files flush os K vss,
  krun P hash (started c files flush) os = Ok (K, vss) -> cf_policy_model c = $"Static,policy=0" ->
  forall i context cs tuning now D init vs vars,
    nth_error os i = Some (KRequest context cs tuning now D init) -> tuning <> [] -> nth_error vss i = Some vs ->
    all_declared (firstn i os) tuning vars -> Forall complete_variable vars -> product (map v_size vars) <= int_max ->
    Forall2 (fun v x => nth_error (v_values v) 0 = Some x) vars vs.
Proof. exact first_candidates. Qed.
Print Assumptions C71_first_candidates.

Example C71_nonvacuous : exists K vss, krun example_platform example_hash (started default_settings [] 3) kernel_calls = Ok (K, vss) /\
  cf_policy_model default_settings = $"Static,policy=0" /\ Forall complete_variable [tile; unroll] /\
  vss = map (map VInt) [[]; []; []; [8; 1]; []; [8; 1]; []; [8; 1]].
Proof. destruct default_run as (K & vss & E & V). exists K, vss. split; [exact E|]. split; [reflexivity|]. split; [exact complete_kernel|exact V]. Qed.

(** ** C72 *)

(** A request for a variable without candidates, such as one declared as an input, is undefined. *)
Theorem C72_no_candidates : forall P hash c files flush os K vss context cs tuning now D init vars v,
  krun P hash (started c files flush) os = Ok (K, vss) -> all_declared os tuning vars -> In v vars -> v_size v = 0 ->
  kstep P hash K (KRequest context cs tuning now D init) = UB.
Proof. exact no_candidates. Qed.
Print Assumptions C72_no_candidates.

(** Which they are: one declared last as an input, as an output without bounds or as an empty set divides by zero. *)
Theorem C72_empty_declaration : forall P hash c files flush os o os' K vss id context cs tuning now D init,
  krun P hash (started c files flush) (os ++ o :: os') = Ok (K, vss) -> divides_by_zero id o -> (forall o', In o' os' -> ~ declares id o') ->
  In id tuning -> kstep P hash K (KRequest context cs tuning now D init) = UB.
Proof. exact empty_declaration. Qed.
Print Assumptions C72_empty_declaration.

(** No request for a variable that offers nothing, such as a range of strings or a range of integers whose ends are
    swapped, returns values. *)
Theorem C72_offers_nothing : forall P hash c files flush os name id x os' K vss context cs tuning now D init K' vs,
  krun P hash (started c files flush) (os ++ KOutput name id x :: os') = Ok (K, vss) -> offers_nothing x ->
  (forall o', In o' os' -> ~ declares id o') -> In id tuning -> kstep P hash K (KRequest context cs tuning now D init) <> Ok (K', vs).
Proof. exact offered_nothing. Qed.
Print Assumptions C72_offers_nothing.

(** The declarations themselves succeed; a range of strings counts -1 candidates and one of integers with swapped ends
    fewer than one. *)
Example C72_declarations_nonvacuous :
  (exists K vss, krun example_platform example_hash (started forest_settings [] 3) nothing_calls = Ok (K, vss)) /\
  (forall id, In id [2; 3] -> exists os o os', nothing_calls = os ++ o :: os' /\ divides_by_zero id o /\ (forall o', In o' os' -> ~ declares id o')) /\
  (forall id, In id [4; 5] -> exists os name x os', nothing_calls = os ++ KOutput name id x :: os' /\ offers_nothing x /\ (forall o', In o' os' -> ~ declares id o')) /\
  declared nothing_calls 4 = Some (mkVariable (Some ($"mode")) (-1) []) /\ declared nothing_calls 5 = Some (mkVariable (Some ($"back")) (-1) []).
Proof. exact nothing_run. Qed.

(** So is one with more than 50 variables. *)
Theorem C72_too_many : forall P hash c files flush os K vss context cs tuning now D init vars,
  krun P hash (started c files flush) os = Ok (K, vss) -> all_declared os tuning vars -> tuning <> [] ->
  (50 < List.length cs + List.length tuning)%nat -> kstep P hash K (KRequest context cs tuning now D init) = UB.
Proof. exact too_many. Qed.
Print Assumptions C72_too_many.

(** So is the first with a variable whose name has 64 characters or more. *)
Theorem C72_long_name : forall P hash c files flush os K vss context cs tuning now D init id v,
  krun P hash (started c files flush) os = Ok (K, vss) -> tuning <> [] -> ~ In (map fst cs ++ tuning) (problems os) ->
  (forall i, In i (map fst cs ++ tuning) -> declared os i <> None) -> In id (map fst cs ++ tuning) -> declared os id = Some v -> v_name v = None ->
  kstep P hash K (KRequest context cs tuning now D init) = UB.
Proof. exact long_name. Qed.
Print Assumptions C72_long_name.

Example C72_nonvacuous :
  (exists K vss, krun example_platform example_hash (started forest_settings [] 3) input_calls = Ok (K, vss) /\
     all_declared input_calls [2; 3] [mkVariable (Some ($"tile")) 0 []; unroll]) /\
  (50 < List.length many + List.length [2; 3])%nat /\
  (exists K vss v, krun example_platform example_hash (started forest_settings [] 3) long_calls = Ok (K, vss) /\
     declared long_calls 1 = Some v /\ v_name v = None /\ (forall i, In i [1; 2; 3] -> declared long_calls i <> None)).
Proof. split; [exact input_run|]. split; [apply Nat.ltb_lt; reflexivity|exact long_run]. Qed.

(** ** C73 *)

(** With a flush rate of 0, what atoi makes of a text that is not a number, no open context can be ended. *)
Theorem C73_flush_zero : forall P hash c files os K vss context now,
  krun P hash (started c files 0) os = Ok (K, vss) -> open_problem os context <> None ->
  forall K' vs, kstep P hash K (KEnd context now) <> Ok (K', vs).
Proof. exact flush_zero. Qed.
Print Assumptions C73_flush_zero.

Example C73_nonvacuous : (exists K vss, krun example_platform example_hash (started forest_settings [] 0) open_calls = Ok (K, vss) /\
    kstep example_platform example_hash K (end_kernel 10 1) = UB) /\ open_problem open_calls 10 = Some [1; 2; 3] /\ atoi ($"often") = Ok 0.
Proof. split; [exact zero_run|]. split; reflexivity. Qed.

(** ** C74 *)

(** A flush after a request whose context holds a value that does not fit in an int, as the hash of a string seldom
    does, is not defined: the trace of the best policies, which the connector turns on, converts it. *)
Theorem C74_flush_undefined : forall P hash c files flush os K vss context now ids i context' cs tuning start D init r R,
  krun P hash (started c files flush) os = Ok (K, vss) ->
  open_problem os context = Some ids -> Z.rem (ends os + 1) flush = 0 -> cf_single_model c = 0 -> no_periods c -> cf_trace_best c <> 0 ->
  last_request os ids i -> ~ ended_since os ids i -> nth_error os i = Some (KRequest context' cs tuning start D init) ->
  place ids (problems os) = Some r -> nth_error (w_regions (k_world K)) r = Some R -> first_named (region_names (k_world K)) (r_name R) r ->
  m_trainable (r_model R) = true ->
  (exists v, In v (map snd cs) /\ forall x, feature_of hash v x -> unprintable x) ->
  forall K' vs, kstep P hash K (KEnd context now) <> Ok (K', vs).
Proof. exact flush_undefined. Qed.
Print Assumptions C74_flush_undefined.

Example C74_nonvacuous : exists K vss R, krun example_platform example_hash (started forest_settings [] 1) string_calls = Ok (K, vss) /\
  open_problem string_calls 10 = Some [1; 2; 3] /\ Z.rem (ends string_calls + 1) 1 = 0 /\ no_periods forest_settings /\ cf_trace_best forest_settings <> 0 /\
  last_request string_calls [1; 2; 3] 3 /\ ~ ended_since string_calls [1; 2; 3] 3 /\ nth_error string_calls 3 = Some (ask_kernel 10 (VString ($"abc")) 0) /\
  place [1; 2; 3] (problems string_calls) = Some 0%nat /\ nth_error (w_regions (k_world K)) 0 = Some R /\ first_named (region_names (k_world K)) (r_name R) 0 /\
  m_trainable (r_model R) = true /\ (forall x, feature_of example_hash (VString ($"abc")) x -> unprintable x) /\
  kstep example_platform example_hash K (end_kernel 10 9) = UB.
Proof.
  destruct string_run as (K & vss & R & E & ER & FN & T & LR & NE & U). exists K, vss, R. split; [exact E|]. clear E. split; [reflexivity|]. split; [reflexivity|].
  split; [split; reflexivity|]. split; [discriminate|]. split; [exact LR|]. split; [exact NE|]. split; [reflexivity|]. split; [reflexivity|]. split; [exact ER|]. split; [exact FN|]. split; [exact T|].
  split; [exact string_unprintable|exact U].
Qed.

(** ** C75 *)

(** A double range with step 0: a hundred times the same candidate. *)
Theorem C75_continuous : forall lower upper step (open_lower open_upper : bool),
  eq64 step zero64 = true -> is_finite (if open_lower then lower else add64 lower epsilon) = true ->
  exists vs, associate_candidates (CDoubleRange lower upper step open_lower open_upper) = Ok (100, vs) /\ List.length vs = 100%nat /\
    Forall (fun v => exists x, v = VDouble x /\ B2R x = B2R (if open_lower then lower else add64 lower epsilon)) vs.
Proof. exact continuous. Qed.
Print Assumptions C75_continuous.

(** A double range between integers with an integer step: from the lower bound up, one less than there are members from
    the lower to the upper bound, whatever bounds are declared open. *)
Theorem C75_steps : forall lower upper step L U s,
  is_finite lower = true -> is_finite upper = true -> is_finite step = true -> B2R lower = IZR L -> B2R upper = IZR U -> B2R step = IZR s ->
  Z.abs L <= 2 ^ 50 -> Z.abs U <= 2 ^ 50 -> 0 < s <= 2 ^ 50 -> L < U ->
  forall open_lower open_upper : bool, (U - L) / s <= int_max ->
  exists vs, associate_candidates (CDoubleRange lower upper step open_lower open_upper) = Ok (Z.of_nat (List.length vs), vs) /\ Z.of_nat (List.length vs) = (U - L) / s /\
    forall k v, nth_error vs k = Some v -> exists x, v = VDouble x /\ is_finite x = true /\
      (B2R x = IZR (L + Z.of_nat k * s) + (if negb open_lower && (L =? 0) && (k =? 0)%nat then B2R epsilon else 0))%R.
Proof. exact double_range. Qed.
Print Assumptions C75_steps.

(** 1 to 10 in steps of 1: 9 candidates; in steps of 0. *)
Example C75_nonvacuous : is_finite (f64_of_Z 1) = true /\ is_finite (f64_of_Z 10) = true /\ B2R (f64_of_Z 1) = 1%R /\ B2R (f64_of_Z 10) = 10%R /\ (10 - 1) / 1 = 9 /\
  eq64 (f64_of_Z 0) zero64 = true /\ is_finite (add64 (f64_of_Z 1) epsilon) = true.
Proof. destruct one_to_ten as (A & B & C & D). destruct continuous_example as (E & F). repeat split; assumption. Qed.
