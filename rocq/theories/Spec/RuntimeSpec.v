(** Vocabulary for statements about runs of the runtime, in terms of the calls made and their results only. *)
From Coq Require Import ZArith Bool Ascii String Reals List.
From Flocq Require Import BinarySingleNaN.
From Verif Require Import Model.Base Model.Float Model.Decimal Model.DatasetM Model.ParserM Model.TreeM Model.ForestM Model.ModelStringM Model.PolicyModelsM Model.ConfigM Model.RuntimeM
  Spec.DatasetSpec Spec.DatasetClient.
Import ListNotations.
Open Scope Z_scope.

(** The calls of a run with their results, oldest first. *)
Definition history := list (op * result).

(** Same context. *)
Definition ctx_eqb (p q : ctxptr) : bool :=
  Nat.eqb (fst p) (fst q) &&
  match snd p, snd q with
  | Sync, Sync => true
  | Heap a, Heap b => Nat.eqb a b
  | _, _ => false
  end.

(** The policy last returned for a context; 0 when none ever was. *)
Definition last_policy (p : ctxptr) (c : Z) (e : op * result) : Z :=
  match e with
  | (OpGetPolicy _ (Some q) _, GotPolicy c') => if ctx_eqb q p then c' else c
  | _ => c
  end.
Definition policy_of (h : history) (p : ctxptr) : Z := fold_left (last_policy p) h 0.

(** The region a begin call is made on. *)
Definition begins (o : op) : option nat :=
  match o with
  | OpBegin r _ _ | OpBeginFeatures r _ _ => Some r
  | _ => None
  end.

(** How many begin calls a region has had. *)
Definition is_begin_of (r : nat) (e : op * result) : bool :=
  match begins (fst e) with Some r' => Nat.eqb r' r | None => false end.
Definition count_begins (h : history) (r : nat) : Z := Z.of_nat (length (filter (is_begin_of r) h)).

(** The number of begin calls its region had before the one that last returned this context. *)
Definition index_step (p : ctxptr) (s : Z * Z) (e : op * result) : Z * Z :=
  let '(n, i) := s in
  if is_begin_of (fst p) e
  then (n + 1, match snd e with GotContext q => if ctx_eqb q p then n else i | _ => i end)
  else s.
Definition index_of (h : history) (p : ctxptr) : Z := snd (fold_left (index_step p) h (0, 0)).

(** The clock when the synchronous execution of a region was last begun. *)
Definition started_step (r : nat) (s : option (Z * Z)) (e : op * result) : option (Z * Z) :=
  match fst e with
  | OpBegin r' false now | OpBeginFeatures r' _ now => if Nat.eqb r' r then Some now else s
  | _ => s
  end.
Definition started_of (h : history) (r : nat) : option (Z * Z) := fold_left (started_step r) h None.

(** The device timer of a context: whether it was asked to stop, and the milliseconds the device reported first
    after that. *)
Definition report (p : ctxptr) (s : bool * option f32) (e : ctxptr * f32) : bool * option f32 :=
  if ctx_eqb (fst e) p then match s with (true, None) => (true, Some (snd e)) | _ => s end else s.
Definition device_step (p : ctxptr) (s : bool * option f32) (e : op * result) : bool * option f32 :=
  match fst e with
  | OpEnd _ (Some q) _ early => if ctx_eqb q p then (true, early) else s
  | OpComplete q ms => report p s (q, ms)
  | OpDestroy _ waits => fold_left (report p) (concat waits) s
  | _ => s
  end.
Definition device_of (h : history) (p : ctxptr) : bool * option f32 := fold_left (device_step p) h (false, None).

(** The end calls made so far: region and context. *)
Definition end_call (e : op * result) : list (nat * ctxptr) :=
  match fst e with
  | OpEnd r (Some p) _ _ | OpEndMetric r (Some p) _ => [(r, p)]
  | _ => []
  end.
Definition ended (h : history) : list (nat * ctxptr) := concat (map end_call h).

(** A measurement taken: the region it is taken for, the context, its contents, and whether the region's data set
    received it. *)
Record entry := mkEntry {
  e_region : nat;
  e_context : ctxptr;
  e_index : Z;
  e_features : list f32;
  e_policy : Z;
  e_metric : f64;
  e_kept : bool
}.
Definition e_meas (e : entry) : meas := (e_features e, e_policy e, e_metric e).

(** Of the measurements taken of a context that is used again and again, which were kept, oldest first. *)
Definition kept_flags (log : list entry) (p : ctxptr) : list bool :=
  match snd p with
  | Sync => map e_kept (filter (fun e => ctx_eqb (e_context e) p) log)
  | Heap _ => []
  end.

(** The features given to a context: those since it was begun or, if that came later, since a measurement of it was
    kept. The state holds the features and, for the end calls still to come, whether their measurements were kept. *)
Definition add_features (p : ctxptr) (s : list f32 * list bool) (e : op * result) : list f32 * list bool :=
  let '(fs, kept) := s in
  match e with
  | (OpBegin _ _ _, GotContext q) => if ctx_eqb q p then ([], kept) else s
  | (OpBeginFeatures _ given _, GotContext q) => if ctx_eqb q p then (given, kept) else s
  | (OpSetFeature _ (Some q) x, _) => if ctx_eqb q p then (fs ++ [x], kept) else s
  | (OpEnd _ (Some q) _ _, _) | (OpEndMetric _ (Some q) _, _) =>
      if ctx_eqb q p
      then match kept with
           | true :: rest => ([], rest)
           | false :: rest => (fs, rest)
           | [] => s
           end
      else s
  | _ => s
  end.
(** Those after the calls [h], in which the measurements [log] were taken. *)
Definition features_of (h : history) (log : list entry) (p : ctxptr) : list f32 :=
  fst (fold_left (add_features p) h ([], kept_flags log p)).

(** The measurement has the features, policy and index of its context in the history [h], in which [log] was taken
    before. *)
Definition faithful (h : history) (log : list entry) (e : entry) : Prop :=
  e_features e = features_of h log (e_context e) /\ e_policy e = policy_of h (e_context e) /\
  e_index e = index_of h (e_context e).

(** A measurement of an asynchronous execution, whose metric is the seconds its device timer reported. *)
Definition asynchronous (h : history) (log : list entry) (r : nat) (e : entry) : Prop :=
  e_region e = r /\ faithful h log e /\
  exists o k ms, e_context e = (o, Heap k) /\ device_of h (e_context e) = (true, Some ms) /\
    e_metric e = div64 (f64_of_f32 ms) (f64_of_Z 1000).

(** The measurements the last call of [h], which is [o], takes, when [log] was taken before. *)
Definition taken (h : history) (log : list entry) (o : op) (l : list entry) : Prop :=
  match o with
  | OpEndMetric r (Some p) x =>
      exists e rest, l = e :: rest /\ e_region e = r /\ e_context e = p /\ e_metric e = x /\ faithful h log e /\
        Forall (asynchronous h log r) rest
  | OpEnd r (Some (q, Sync)) now _ =>
      exists e start, q = r /\ l = [e] /\ e_region e = r /\ e_context e = (r, Sync) /\ faithful h log e /\
        started_of h r = Some start /\ e_metric e = sub64 (clock_seconds now) (clock_seconds start)
  | OpEnd r (Some (_, Heap _)) _ _ | OpCollect r | OpDestroy r _ | OpTrain r _ true _ => Forall (asynchronous h log r) l
  | OpTrainAll _ true => Forall (fun e => asynchronous h log (e_region e) e) l
  | _ => l = []
  end.

(** Calls that look at every pending execution of a region. *)
Definition looks_at (r : nat) (o : op) : bool :=
  match o with
  | OpEnd r' (Some (_, Heap _)) _ _ | OpEndMetric r' _ _ | OpCollect r' | OpDestroy r' _ => Nat.eqb r' r
  | OpTrain r' _ true true => Nat.eqb r' r
  | _ => false
  end.

(** Calls naming their context; runs that do not end the process. *)
Definition explicit (o : op) : bool :=
  match o with
  | OpSetFeature _ None _ | OpGetPolicy _ None _ | OpEnd _ None _ _ | OpEndMetric _ None _ | OpShutdown _ => false
  | _ => true
  end.

(** The measurements a region's data set received. *)
Definition kept_for (r : nat) (log : list entry) : list meas :=
  map e_meas (filter (fun e => Nat.eqb (e_region e) r && e_kept e) log).

(** The contexts ended on a region, oldest first. *)
Definition ended_on (h : history) (r : nat) : list ctxptr :=
  map snd (filter (fun e => Nat.eqb (fst e) r) (ended h)).

(** The measurements taken for a region. *)
Definition taken_for (r : nat) (log : list entry) : list entry := filter (fun e => Nat.eqb (e_region e) r) log.

(** Contexts on the heap, one per asynchronous execution. *)
Definition on_heap (p : ctxptr) : bool := match snd p with Sync => false | Heap _ => true end.

(** Whether a region's measurements go into its data set. *)
Definition keeps (c : config) (R : region) : bool := truthy (cf_persistent c) || m_trainable (r_model R).

(** Whether each of several measurements was kept, when the region kept them ([b]) before the first and keeps them
    ([b']) after the last: it keeps all until it stops. *)
Definition flags (b : bool) (l : list bool) (b' : bool) : Prop :=
  exists a n, l = repeat true a ++ repeat false n /\ (b = false -> a = 0%nat) /\ (b' = true -> n = 0%nat) /\ (b' = true -> b = true).

(** The line of the region's trace for a measurement: rank, model, region, index, features, policy, metric. *)
Definition trace_line (rank : Z) (model name : bytes) (e : entry) : bytes :=
  print_Z rank ++ $" " ++ model ++ $" " ++ name ++ $" " ++ print_Z (e_index e) ++ $" " ++
  concat (map (fun x => print_float x ++ $" ") (e_features e)) ++ print_Z (e_policy e) ++ $" " ++ print_float (e_metric e) ++ [nl].

(** The lines one call appends to the trace of region [r]. *)
Definition trace_lines (w : world) (r : nat) (R : region) (l : list entry) : bytes :=
  if truthy (cf_trace_csv (w_config w))
  then concat (map (trace_line (w_rank w) (m_name (r_model R)) (r_name R)) (taken_for r l)) else [].

(** The context that calls without one use, after a call: the one just begun, none after a measurement. *)
Definition current_after (r : nat) (e : op * result) (l : list entry) (before : option ctxptr) : option ctxptr :=
  if is_begin_of r e then match snd e with GotContext p => Some p | _ => None end
  else match taken_for r l with [] => before | _ :: _ => None end.

(** One call takes the measurements [l]: the region of each inserts into its data set those it keeps, in order, and no
    other data set changes; the trace gets a line for each. *)
Definition stored (w : world) (e : op * result) (l : list entry) (w' : world) : Prop :=
  w_executions w' = (w_executions w + Z.of_nat (List.length l)) mod 2 ^ 64 /\
  forall r R R', nth_error (w_regions w) r = Some R -> nth_error (w_regions w') r = Some R' ->
    insert_all (r_dataset R) (kept_for r l) = Ok (r_dataset R') /\
    flags (keeps (w_config w) R) (map e_kept (taken_for r l)) (keeps (w_config w) R') /\
    r_trace R' = r_trace R ++ trace_lines w r R l /\
    r_current R' = current_after r e l (r_current R).

(** The measurements taken in the course of a run, call by call. *)
Inductive records (P : platform) (w0 : world) : history -> list entry -> world -> Prop :=
| records_nil : records P w0 [] [] w0
| records_snoc h log w o x l w' : records P w0 h log w -> step P w o = Ok (w', x) -> taken (h ++ [(o, x)]) log o l ->
    stored w (o, x) l w' -> records P w0 (h ++ [(o, x)]) (log ++ l) w'.

(** The contexts a region holds that were ended but not collected. *)
Definition pending_of (w : world) (r : nat) : list ctxptr :=
  match nth_error (w_regions w) r with Some R => r_pending R | None => [] end.

(** The same call with its context named. *)
Definition names (o o' : op) : Prop :=
  match o with
  | OpSetFeature r None x => exists p, o' = OpSetFeature r (Some p) x
  | OpGetPolicy r None D => exists p, o' = OpGetPolicy r (Some p) D
  | OpEnd r None now early => exists p, o' = OpEnd r (Some p) now early
  | OpEndMetric r None x => exists p, o' = OpEndMetric r (Some p) x
  | _ => o' = o
  end.
Definition ends_process (o : op) : bool := match o with OpShutdown _ => true | _ => false end.

(** ** Synchronous clients *)

(** Calls on a region's executions or on one of its contexts. *)
Definition about (r : nat) (o : op) : bool :=
  let context p := match p with Some q => Nat.eqb (fst q) r | None => false end in
  match o with
  | OpBegin r' _ _ | OpBeginFeatures r' _ _ => Nat.eqb r' r
  | OpSetFeature r' p _ | OpGetPolicy r' p _ | OpEnd r' p _ _ | OpEndMetric r' p _ => Nat.eqb r' r || context p
  | _ => false
  end.

(** A region is idle, or executing with its start time, features so far and policy once chosen. *)
Inductive phase := Idle | Running (start : Z * Z) (features : list f32) (policy : option Z).

(** Following a client that begins, sets features, asks for the policy and ends, one execution of the region at a time:
    the phase and the measurements the executions should give; [None] when it does anything else with the region. *)
Definition own (r : nat) (p : option ctxptr) : bool :=
  match p with Some q => ctx_eqb q (r, Sync) | None => false end.
Definition follow (r : nat) (s : option (phase * list meas)) (e : op * result) : option (phase * list meas) :=
  match s with
  | None => None
  | Some (ph, ms) =>
      if negb (about r (fst e)) then s
      else
        match ph, e with
        | Idle, (OpBegin _ false now, _) => Some (Running now [] None, ms)
        | Idle, (OpBeginFeatures _ fs now, _) => Some (Running now fs None, ms)
        | Running start fs c, (OpSetFeature r' p x, _) =>
            if Nat.eqb r' r && own r p then Some (Running start (fs ++ [x]) c, ms) else None
        | Running start fs _, (OpGetPolicy r' p _, GotPolicy c) =>
            if Nat.eqb r' r && own r p then Some (Running start fs (Some c), ms) else None
        | Running start fs (Some c), (OpEnd r' p now _, _) =>
            if Nat.eqb r' r && own r p
            then Some (Idle, ms ++ [(fs, c, sub64 (clock_seconds now) (clock_seconds start))]) else None
        | _, _ => None
        end
  end.
Definition followed (r : nat) (h : history) : option (phase * list meas) := fold_left (follow r) h (Some (Idle, [])).

(** ** Calls without a context *)

(** Calls on a region that may collect measurements for it. *)
Definition collects_on (r : nat) (o : op) : bool :=
  match o with
  | OpEnd r' _ _ _ | OpEndMetric r' _ _ | OpCollect r' | OpTrain r' _ _ _ => Nat.eqb r' r
  | _ => false
  end.
Definition context_free (r : nat) (o : op) : bool :=
  match o with
  | OpSetFeature r' None _ | OpGetPolicy r' None _ | OpEnd r' None _ _ | OpEndMetric r' None _ => Nat.eqb r' r
  | _ => false
  end.

(** No data set is loaded when a region is created with this model string. *)
Definition starts_empty (c : config) (info : bytes) : Prop :=
  cf_persistent c = 0 /\
  forall name ps, parse_policy_model (match info with [] => cf_policy_model c | _ => info end) = Ok (name, ps) ->
    name <> $"DatasetMap" /\ param_find ($"load-dataset") ps = None.

(** The header of a region's trace: the names of its columns. *)
Definition trace_columns (num_features : nat) : list bytes :=
  [$"rankid"; $"training"; $"region"; $"idx"] ++ map (fun i => $"f" ++ print_Z (Z.of_nat i)) (seq 0 num_features) ++ [$"policy"; $"xtime"].
Fixpoint spaced (l : list bytes) : bytes :=
  match l with
  | [] => []
  | [x] => x
  | x :: rest => x ++ $" " ++ spaced rest
  end.

(** ** The registry *)

(** The first region created under a name. *)
Definition first_named (names : list bytes) (n : bytes) (r : nat) : Prop :=
  nth_error names r = Some n /\ forall k, (k < r)%nat -> nth_error names k <> Some n.
Definition region_names (w : world) : list bytes := map r_name (w_regions w).

(** The names given to the regions created, cut after 63 characters. *)
Definition creates (o : op) : list bytes :=
  match o with OpRegion _ name _ _ _ _ _ => [firstn 63 (cstr name)] | _ => [] end.
Definition created_names (os : list op) : list bytes := concat (map creates os).

(** The region a call is made on. *)
Definition made_on (o : op) : option nat :=
  match o with
  | OpBegin r _ _ | OpBeginFeatures r _ _ | OpSetFeature r _ _ | OpGetPolicy r _ _ | OpEnd r _ _ _ | OpEndMetric r _ _
  | OpTrain r _ _ _ | OpCollect r | OpDestroy r _ => Some r
  | OpRegion _ _ _ _ _ _ _ | OpTrainAll _ _ | OpShutdown _ | OpComplete _ _ => None
  end.

(** What a region knows and can do, its contexts aside. *)
Definition as_before (R R' : region) : Prop :=
  r_alive R' = r_alive R /\ r_model R' = r_model R /\ r_dataset R' = r_dataset R /\ r_pending R' = r_pending R /\
  r_idx R' = r_idx R /\ r_current R' = r_current R /\ r_trace R' = r_trace R.

(** ** Policies in range *)

(** What the standard says of the draws: within the bounds; an index of the list of weights. *)
Definition draws_ok (D : draws) : Prop :=
  (forall lo hi, lo <= hi -> lo <= d_uniform D lo hi <= hi) /\
  (forall l i, d_discrete D l = Ok i -> 0 <= i < Z.of_nat (List.length l)).
Definition fair (o : op) : Prop := match o with OpGetPolicy _ _ D => draws_ok D | _ => True end.

(** A call that names a context names one of the region it is made on. *)
Definition own_context (o : op) : Prop :=
  match o with
  | OpSetFeature r (Some p) _ | OpGetPolicy r (Some p) _ | OpEnd r (Some p) _ _ | OpEndMetric r (Some p) _ => fst p = r
  | _ => True
  end.

(** The creation of a region reads no model or data set from a file. *)
Definition no_load (w : world) (o : op) : Prop :=
  match o with
  | OpRegion _ nm _ _ info yaml _ =>
      let c := w_config w in
      yaml = [] /\ (cf_persistent c = 0 \/ file_find (dataset_file c (firstn 63 (cstr nm))) (w_files w) = None) /\
      forall name ps, parse_policy_model (match info with [] => cf_policy_model c | _ => info end) = Ok (name, ps) ->
        name <> $"Optimal" /\ name <> $"DatasetMap" /\ param_find ($"load") ps = None /\ param_find ($"load-dataset") ps = None
  | _ => True
  end.

(** ** Automatic training *)

(** The global period, an int compared with an unsigned counter, divides the number of executions. *)
Definition global_due (c : config) (executions : Z) : Prop :=
  cf_global_period c <> 0 /\ (cf_global_period c mod 2 ^ 64 | executions).
(** The period for regions divides the number of begin calls. *)
Definition region_due (c : config) (begins : Z) : Prop :=
  cf_region_period c <> 0 /\ (cf_region_period c | begins).
(** The distinct measurements asked for have been recorded. *)
Definition enough (R : region) : Prop := 0 < r_min_training R <= ds_size (r_dataset R).

(** Training of a model with a data set; nothing happens without data. *)
Definition trained_with (P : platform) (m : model) (d : dataset) (m' : model) : Prop :=
  (0 < ds_size d -> m_train P m d = Ok m') /\ (ds_size d <= 0 -> m' = m).

(** The measurements of all registered regions, in the order of their names. *)
Definition all_data (w : world) (d : dataset) : Prop :=
  exists Rs, Forall2 (fun r R => nth_error (w_regions w) r = Some R) (map snd (w_registry w)) Rs /\
    insert_all [] (concat (map (fun R => ds_to_vector (r_dataset R)) Rs)) = Ok d.

(** What the end of an execution of region [r], before as [R] and after as [R'], does to the model of region [i]: [n]
    executions have been recorded, region [r] has begun [idx], the worlds are [w] before and [w'] after. *)
Definition auto_trained (P : platform) (n idx : Z) (w w' : world) (r : nat) (R R' : region) (i : nat) (Ri Ri' : region) : Prop :=
  let c := w_config w in
  let registered := In i (map snd (w_registry w)) in
  let one := region_due c idx \/ enough R' in
  (m_trainable (r_model R) = false -> r_model Ri' = r_model Ri) /\
  (m_trainable (r_model R) = true -> global_due c n -> cf_single_model c = 0 ->
     (registered /\ m_trainable (r_model Ri) = true -> trained_with P (r_model Ri) (r_dataset Ri') (r_model Ri')) /\
     (~ (registered /\ m_trainable (r_model Ri) = true) -> r_model Ri' = r_model Ri)) /\
  (m_trainable (r_model R) = true -> global_due c n -> cf_single_model c <> 0 ->
     (registered -> exists d, all_data w' d /\ m_train P (r_model Ri) d = Ok (r_model Ri')) /\
     (~ registered -> r_model Ri' = r_model Ri)) /\
  (m_trainable (r_model R) = true -> ~ global_due c n -> one ->
     (i = r -> m_train P (r_model Ri) (r_dataset Ri') = Ok (r_model Ri')) /\
     (i <> r -> r_model Ri' = r_model Ri)) /\
  (~ global_due c n -> ~ one -> r_model Ri' = r_model Ri).

(** ** Exploring and exploiting *)

(** A tree or forest that has not been trained and the model it explores with. *)
Definition exploring (m e : model) : Prop :=
  (exists n t, m = MTree n true t (Some e)) \/ (exists n f, m = MForest n true f (Some e)).
(** What a trained tree or forest predicts. *)
Definition predicts (m : model) (predict : list f32 -> outcome Z) : Prop :=
  (exists n t e, m = MTree n false t e /\ predict = dt_predict t) \/ (exists n f e, m = MForest n false f e /\ predict = f_predict f).

(** The calls of getPolicyIndex on region [r] in a run: the draws and the features of the context used. *)
Definition call_features (w : world) (r : nat) (p : option ctxptr) : list f32 :=
  match resolve w r p with
  | Ok q => match get_context w q with Ok c => c_features c | _ => [] end
  | _ => []
  end.
Fixpoint asked (P : platform) (w : world) (os : list op) (r : nat) : list (draws * list f32) :=
  match os with
  | [] => []
  | o :: rest =>
      match o with
      | OpGetPolicy i p D => if Nat.eqb i r then [(D, call_features w r p)] else []
      | _ => []
      end ++
      match step P w o with Ok (w', _) => asked P w' rest r | _ => [] end
  end.
(** The answers to these calls. *)
Fixpoint answers (os : list op) (xs : list result) (r : nat) : list Z :=
  match os, xs with
  | o :: os, x :: xs =>
      match o, x with
      | OpGetPolicy i _ _, GotPolicy k => if Nat.eqb i r then [k] else []
      | _, _ => []
      end ++ answers os xs r
  | _, _ => []
  end.

(** No training is forced. *)
Definition unforced (o : op) : Prop := match o with OpTrain _ _ _ force => force = false | _ => True end.

(** ** Files *)

(** The files the library writes: models and data in the directories it is given, traces and run information. *)
Definition own_file (c : config) (rank : Z) (path : bytes) : Prop :=
  (exists st mn nm, path = model_step_file c rank st mn nm) \/
  (exists mn nm, path = model_latest_file c rank mn nm) \/
  (exists nm, path = dataset_file c nm) \/
  (exists st nm, path = $"step-" ++ print_Z st ++ $"-rank-" ++ print_Z rank ++ $"-" ++ nm ++ $"-best_policies.txt") \/
  path = $"rank-" ++ print_Z rank ++ $"-policies.txt" \/
  path = in_dir (cf_output_dir c) ($"apollo_exec_info.csv").

(** Only those may differ, and none is removed. *)
Definition only_own_files (c : config) (rank : Z) (before after : list (bytes * bytes)) : Prop :=
  forall path,
    (file_find path before <> None -> file_find path after <> None) /\
    (~ own_file c rank path -> file_find path after = file_find path before).

(** ** Traces of features *)

(** A feature that does not fit in an int. *)
Definition unprintable (x : f32) : Prop :=
  is_finite x = false \/ (2147483648 <= B2R x)%R \/ (B2R x <= -2147483649)%R.

(** Regions made without a model of their own. *)
Definition default_model (o : op) : Prop := match o with OpRegion _ _ _ _ info _ _ => info = [] | _ => True end.
