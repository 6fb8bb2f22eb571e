(** The runtime: regions, their contexts and timers, collection of measurements, training
    (src/Region.cpp, include/apollo/Region.h, src/Apollo.cpp, src/timers/*.cpp).

    The state of the process is a [world]; every API call is an [op] taking it to a new world, or ending it. The
    completion of an asynchronous timer is an event of the environment.

    Simplifications. A build without ENABLE_MPI and without OpenCV. A context is named by the region whose begin()
    created it and a number, instead of an address; memory is never reused, so a dangling pointer is always noticed
    (UB). A run ends at the first exception: what an application could do after catching one is not modelled.
    A build with device timers: without one, begin() of such a kind aborts
    (line 459 of Region.cpp), so its runs are those that never ask for one. Timers complete between calls, or inside
    the end() that stops them. Files are a map from paths to contents; opening for writing always succeeds, directories are not modelled.
    Messages to std::cout and std::cerr and the global trace file (lines 511-515 of Region.cpp), which contain
    nothing that the program reads again, are left out. *)
From Coq Require Import List ZArith Bool Ascii String.
From Flocq Require Import BinarySingleNaN.
From Verif Require Import Model.Base Model.Float Model.Decimal Model.DatasetM Model.ParserM Model.DatasetIO
  Model.ModelStringM Model.PolicyModelsM Model.ConfigM.
Import ListNotations.
Open Scope Z_scope.

(** ** Timers *)

(** TimerSync.h line 21 and TimerCudaAsync.h lines 23-24, TimerHipAsync.h. [Clock]: the readings of start() and
    stop(), [None] while indeterminate. [Events]: whether the stop event has been recorded, and the elapsed
    milliseconds once the device has reached it. *)
Inductive timer :=
| Clock (t_begin t_end : option f64)
| Events (stopped : bool) (elapsed : option f32).

(** `ts.tv_sec + ts.tv_nsec / 1e9`, TimerSync.cpp lines 16 and 23. *)
Definition clock_seconds (now : Z * Z) : f64 :=
  add64 (f64_of_Z (fst now)) (div64 (f64_of_Z (snd now)) (f64_of_Z 1000000000)).

(** Timer::start: TimerSync.cpp lines 12-17, TimerCudaAsync.cpp lines 42-46. *)
Definition timer_start (now : Z * Z) (t : timer) : timer :=
  match t with
  | Clock _ e => Clock (Some (clock_seconds now)) e
  | Events s e => Events s e
  end.

(** Timer::stop: TimerSync.cpp lines 19-24, TimerCudaAsync.cpp line 48. *)
Definition timer_stop (now : Z * Z) (t : timer) : timer :=
  match t with
  | Clock b _ => Clock b (Some (clock_seconds now))
  | Events _ _ => Events true None
  end.

(** Timer::isDone: TimerSync.cpp lines 26-30, TimerCudaAsync.cpp lines 50-65, TimerHipAsync.cpp lines 50-66;
    [None] is false, [Some x] is true with metric x. Asking a device timer before its stop event was recorded is
    an error that aborts (cudaAssert, line 59). *)
Definition timer_done (t : timer) : outcome (option f64) :=
  match t with
  | Clock (Some b) (Some e) => Ok (Some (sub64 e b))
  | Clock _ _ => UB
  | Events false _ => Abort
  | Events true None => Ok None
  | Events true (Some ms) => Ok (Some (div64 (f64_of_f32 ms) (f64_of_Z 1000)))
  end.

(** ** State *)

(** Apollo::RegionContext, include/apollo/Region.h lines 26-31. *)
Record context := mkContext {
  c_features : list f32;
  c_policy : Z;
  c_idx : Z;
  c_timer : timer
}.

(** Pointers to contexts: the region that created it, and either its member sync_context or its k-th heap context.
    include/apollo/Region.h lines 87-88 and 91. *)
Inductive which := Sync | Heap (k : nat).
(** See [which]. include/apollo/Region.h lines 87-88 and 91. *)
Definition ctxptr := (nat * which)%type.

(** `context == &sync_context`, src/Region.cpp lines 432 and 572, for the region [r]. *)
Definition is_sync_of (r : nat) (p : ctxptr) : bool :=
  match p with (o, Sync) => Nat.eqb o r | _ => false end.

(** Apollo::Region, include/apollo/Region.h lines 46-99. [r_alive] is false once the object is destroyed; [r_heap]
    are the contexts its begin() allocated, [None] once deleted; [r_trace] is what was written to trace_file. *)
Record region := mkRegion {
  r_alive : bool;
  r_name : bytes;
  r_num_features : Z;
  r_num_policies : Z;
  r_min_training : Z;
  r_model_info : bytes;
  r_model_name : bytes;
  r_model : model;
  r_dataset : dataset;
  r_idx : Z;
  r_current : option ctxptr;
  r_sync : context;
  r_heap : list (option context);
  r_pending : list ctxptr;
  r_trace : bytes
}.

(** The process: Config, the members of Apollo (include/apollo/Apollo.h lines 36-59), every region ever created, the
    file system. [w_registry] is the map `regions`, in its order. *)
Record world := mkWorld {
  w_config : config;
  w_rank : Z;
  w_regions : list region;
  w_registry : list (bytes * nat);
  w_executions : Z;
  w_files : list (bytes * bytes)
}.

(** Replacement of an element of a list. For assignments to members of one object, e.g. src/Region.cpp line 535. *)
Fixpoint set_nth {A} (l : list A) (n : nat) (x : A) : list A :=
  match l, n with
  | [], _ => []
  | _ :: r, O => x :: r
  | y :: r, S n' => y :: set_nth r n' x
  end.

(** Member access through a Region pointer: undefined once the region is destroyed.
    E.g. src/Apollo.cpp lines 488-513. *)
Definition get_region (w : world) (r : nat) : outcome region :=
  match nth_error (w_regions w) r with
  | Some R => if r_alive R then Ok R else UB
  | None => UB
  end.

(** Assignment of members of a region. include/apollo/Region.h lines 46-99. *)
Definition set_region (w : world) (r : nat) (R : region) : world :=
  mkWorld (w_config w) (w_rank w) (set_nth (w_regions w) r R) (w_registry w) (w_executions w) (w_files w).

(** Assignment of a file's contents. E.g. src/Region.cpp lines 71-76. *)
Definition set_files (w : world) (f : list (bytes * bytes)) : world :=
  mkWorld (w_config w) (w_rank w) (w_regions w) (w_registry w) (w_executions w) f.

(** `apollo->region_executions++`, an unsigned long long, src/Region.cpp line 530. *)
Definition count_execution (w : world) : world :=
  mkWorld (w_config w) (w_rank w) (w_regions w) (w_registry w) ((w_executions w + 1) mod 2 ^ 64) (w_files w).

(** Assignments of single members of a region, used by the functions below. include/apollo/Region.h lines 46-99. *)
Definition with_model (R : region) (m : model) : region :=
  mkRegion (r_alive R) (r_name R) (r_num_features R) (r_num_policies R) (r_min_training R) (r_model_info R)
    (r_model_name R) m (r_dataset R) (r_idx R) (r_current R) (r_sync R) (r_heap R) (r_pending R) (r_trace R).
(** See [with_model]. include/apollo/Region.h lines 46-99. *)
Definition with_dataset (R : region) (d : dataset) : region :=
  mkRegion (r_alive R) (r_name R) (r_num_features R) (r_num_policies R) (r_min_training R) (r_model_info R)
    (r_model_name R) (r_model R) d (r_idx R) (r_current R) (r_sync R) (r_heap R) (r_pending R) (r_trace R).
(** See [with_model]. include/apollo/Region.h lines 46-99. *)
Definition with_idx (R : region) (i : Z) : region :=
  mkRegion (r_alive R) (r_name R) (r_num_features R) (r_num_policies R) (r_min_training R) (r_model_info R)
    (r_model_name R) (r_model R) (r_dataset R) i (r_current R) (r_sync R) (r_heap R) (r_pending R) (r_trace R).
(** See [with_model]. include/apollo/Region.h lines 46-99. *)
Definition with_current (R : region) (p : option ctxptr) : region :=
  mkRegion (r_alive R) (r_name R) (r_num_features R) (r_num_policies R) (r_min_training R) (r_model_info R)
    (r_model_name R) (r_model R) (r_dataset R) (r_idx R) p (r_sync R) (r_heap R) (r_pending R) (r_trace R).
(** See [with_model]. include/apollo/Region.h lines 46-99. *)
Definition with_sync (R : region) (c : context) : region :=
  mkRegion (r_alive R) (r_name R) (r_num_features R) (r_num_policies R) (r_min_training R) (r_model_info R)
    (r_model_name R) (r_model R) (r_dataset R) (r_idx R) (r_current R) c (r_heap R) (r_pending R) (r_trace R).
(** See [with_model]. include/apollo/Region.h lines 46-99. *)
Definition with_heap (R : region) (h : list (option context)) : region :=
  mkRegion (r_alive R) (r_name R) (r_num_features R) (r_num_policies R) (r_min_training R) (r_model_info R)
    (r_model_name R) (r_model R) (r_dataset R) (r_idx R) (r_current R) (r_sync R) h (r_pending R) (r_trace R).
(** See [with_model]. include/apollo/Region.h lines 46-99. *)
Definition with_pending (R : region) (p : list ctxptr) : region :=
  mkRegion (r_alive R) (r_name R) (r_num_features R) (r_num_policies R) (r_min_training R) (r_model_info R)
    (r_model_name R) (r_model R) (r_dataset R) (r_idx R) (r_current R) (r_sync R) (r_heap R) p (r_trace R).
(** See [with_model]. include/apollo/Region.h lines 46-99. *)
Definition with_trace (R : region) (t : bytes) : region :=
  mkRegion (r_alive R) (r_name R) (r_num_features R) (r_num_policies R) (r_min_training R) (r_model_info R)
    (r_model_name R) (r_model R) (r_dataset R) (r_idx R) (r_current R) (r_sync R) (r_heap R) (r_pending R) t.
(** See [with_model]. include/apollo/Region.h lines 46-99. *)
Definition with_alive (R : region) (b : bool) : region :=
  mkRegion b (r_name R) (r_num_features R) (r_num_policies R) (r_min_training R) (r_model_info R)
    (r_model_name R) (r_model R) (r_dataset R) (r_idx R) (r_current R) (r_sync R) (r_heap R) (r_pending R) (r_trace R).

(** Dereferencing a context pointer: a sync_context lives as long as its region, a heap context until deleted.
    include/apollo/Region.h lines 26-31 and 87-91. *)
Definition get_context (w : world) (p : ctxptr) : outcome context :=
  match nth_error (w_regions w) (fst p) with
  | None => UB
  | Some R =>
      match snd p with
      | Sync => if r_alive R then Ok (r_sync R) else UB
      | Heap k => match nth_error (r_heap R) k with Some (Some c) => Ok c | _ => UB end
      end
  end.

(** Assignment through a context pointer. include/apollo/Region.h lines 26-31. *)
Definition set_context (w : world) (p : ctxptr) (c : context) : world :=
  match nth_error (w_regions w) (fst p) with
  | None => w
  | Some R =>
      match snd p with
      | Sync => set_region w (fst p) (with_sync R c)
      | Heap k => set_region w (fst p) (with_heap R (set_nth (r_heap R) k (Some c)))
      end
  end.

(** `delete context`, src/Region.cpp line 434: undefined for a context that new did not create or that is gone. *)
Definition delete_context (w : world) (p : ctxptr) : outcome world :=
  match nth_error (w_regions w) (fst p), snd p with
  | Some R, Heap k =>
      match nth_error (r_heap R) k with
      | Some (Some _) => Ok (set_region w (fst p) (with_heap R (set_nth (r_heap R) k None)))
      | _ => UB
      end
  | _, _ => UB
  end.

(** The environment: the device reaches the stop event of a timer after [ms] milliseconds. It concerns only timers
    whose stop event has been recorded. TimerCudaAsync::isDone, src/timers/TimerCudaAsync.cpp. *)
Definition complete (w : world) (e : ctxptr * f32) : world :=
  match get_context w (fst e) with
  | Ok c =>
      match c_timer c with
      | Events true None => set_context w (fst e) (mkContext (c_features c) (c_policy c) (c_idx c) (Events true (Some (snd e))))
      | _ => w
      end
  | _ => w
  end.

(** ** Files *)

(** Contents of a file, if it exists. std::ifstream and fileExists, e.g. src/Region.cpp lines 348-352. *)
Fixpoint file_find (path : bytes) (f : list (bytes * bytes)) : option bytes :=
  match f with
  | [] => None
  | (p, s) :: r => if bytes_eqb path p then Some s else file_find path r
  end.

(** A file created or overwritten. std::ofstream, e.g. src/Region.cpp lines 71-76. *)
Fixpoint file_write (path text : bytes) (f : list (bytes * bytes)) : list (bytes * bytes) :=
  match f with
  | [] => [(path, text)]
  | (p, s) :: r => if bytes_eqb path p then (p, text) :: r else (p, s) :: file_write path text r
  end.

(** A file opened with std::ofstream::app and written, src/Region.cpp lines 130-133. *)
Definition file_append (path text : bytes) (f : list (bytes * bytes)) : list (bytes * bytes) :=
  file_write path (match file_find path f with Some s => s | None => [] end ++ text) f.

(** The name of the file the training step writes with a step number, src/Region.cpp lines 89-92. *)
Definition model_step_file (c : config) (rank step : Z) (model_name region_name : bytes) : bytes :=
  cf_output_dir c ++ $"/" ++ cf_models_dir c ++ $"/" ++ model_name ++ $"-step-" ++ print_Z step ++ $"-rank-" ++
  print_Z rank ++ $"-" ++ region_name ++ $".yaml".

(** The name of the latest file, as it is written, src/Region.cpp lines 94-98. *)
Definition model_latest_file (c : config) (rank : Z) (model_name region_name : bytes) : bytes :=
  cf_output_dir c ++ $"/" ++ cf_models_dir c ++ $"/" ++ model_name ++ $"-latest" ++ $"-rank-" ++ print_Z rank ++ $"-" ++
  region_name ++ $".yaml".

(** The name of the latest file, as it is read, src/Region.cpp lines 299-302. *)
Definition model_load_file (c : config) (rank : Z) (model_name region_name : bytes) : bytes :=
  cf_output_dir c ++ $"/" ++ cf_models_dir c ++ $"/" ++ model_name ++ $"-latest-rank-" ++ print_Z rank ++ $"-" ++
  region_name ++ $".yaml".

(** The name of a region's dataset file, src/Region.cpp lines 317-319, 330-332, 363-365, 417-419. *)
Definition dataset_file (c : config) (region_name : bytes) : bytes :=
  cf_output_dir c ++ $"/" ++ cf_datasets_dir c ++ $"/Dataset-" ++ region_name ++ $".yaml".

(** The name of a policy file of Optimal, src/Region.cpp lines 351-352. *)
Definition optimal_file (rank : Z) (region_name : bytes) : bytes :=
  $"opt-" ++ region_name ++ $"-rank-" ++ print_Z rank ++ $".txt".

(** `(int)f`, src/Region.cpp lines 67 and 127: undefined when the integer part does not fit. *)
Definition int_of_float (x : f32) : outcome Z :=
  if is_finite x then
    let z := Btrunc x in if (- 2 ^ 31 <=? z) && (z <? 2 ^ 31) then Ok z else UB
  else UB.

(** `for (auto &f : features) trace_out << (int)f << ", "`, src/Region.cpp lines 66-67 and 126-127. *)
Fixpoint trace_features (l : list f32) : outcome bytes :=
  match l with
  | [] => Ok []
  | x :: r => let* z := int_of_float x in let* s := trace_features r in Ok (print_Z z ++ $", " ++ s)
  end.

(** An unsigned long long converted to int, src/Region.cpp line 498. *)
Definition to_int (z : Z) : Z := let m := z mod 2 ^ 32 in if m <? 2 ^ 31 then m else m - 2 ^ 32.

(** ** Training *)

Section Platform.
Variable P : platform.

(** The lines of the best-policies trace, src/Region.cpp lines 64-70. *)
Fixpoint trace_best_lines (b : best_map) : outcome bytes :=
  match b with
  | [] => Ok []
  | (f, (p, x)) :: r =>
      let* fs := trace_features f in
      let* rest := trace_best_lines r in
      Ok ($"[ " ++ fs ++ $"] P:" ++ print_Z p ++ $" T: " ++ print_float x ++ [nl] ++ rest)
  end.

(** The best-policies trace, src/Region.cpp lines 53-77. *)
Definition trace_best (w : world) (R : region) (step : Z) : outcome world :=
  if negb (truthy (cf_trace_best (w_config w))) then Ok w
  else
    let '(_, _, best) := ds_find_min (r_dataset R) [] [] in
    let* lines := trace_best_lines best in
    let text := $"=== Rank " ++ print_Z (w_rank w) ++ $" BEST POLICIES Region " ++ r_name R ++ $" ===" ++ [nl] ++ lines in
    let path := $"step-" ++ print_Z step ++ $"-rank-" ++ print_Z (w_rank w) ++ $"-" ++ r_name R ++ $"-best_policies.txt" in
    Ok (set_files w (file_write path text (w_files w))).

(** `model->store(filename)`, src/Region.cpp lines 93 and 99. *)
Definition store_model (w : world) (m : model) (path : bytes) : outcome world :=
  let* s := m_store m in
  match s with
  | None => Ok w
  | Some text => Ok (set_files w (file_write path text (w_files w)))
  end.

(** Region::train after the pending contexts have been dealt with, src/Region.cpp lines 48-114. *)
Definition train_body (w : world) (r : nat) (step : Z) : outcome world :=
  let* R := get_region w r in
  if ds_size (r_dataset R) <=? 0 then Ok w
  else if negb (truthy (cf_region_model (w_config w))) then Throw
  else
    let* w := trace_best w R step in
    let* m := m_train P (r_model R) (r_dataset R) in
    let w := set_region w r (with_model R m) in
    if truthy (cf_retrain (w_config w)) then Throw
    else if truthy (cf_store_models (w_config w)) then
      let* w := store_model w m (model_step_file (w_config w) (w_rank w) step (m_name m) (r_name R)) in
      store_model w m (model_latest_file (w_config w) (w_rank w) (m_name m) (r_name R))
    else Ok w.

(** Region::train(step, false), src/Region.cpp lines 38-114. *)
Definition train_quietly (w : world) (r : nat) (step : Z) : outcome world :=
  let* R := get_region w r in
  if negb (m_trainable (r_model R)) then Ok w else train_body w r step.

(** `merged_dataset.insert(reg->dataset)` for every region, src/Apollo.cpp lines 488-493. *)
Fixpoint merge_datasets (w : world) (rs : list nat) (d : dataset) : outcome dataset :=
  match rs with
  | [] => Ok d
  | r :: rest => let* R := get_region w r in let* d := ds_merge d (r_dataset R) in merge_datasets w rest d
  end.

(** `reg->model->train(merged_dataset)` for every region, src/Apollo.cpp lines 498-503. *)
Fixpoint train_each_on (w : world) (rs : list nat) (d : dataset) : outcome world :=
  match rs with
  | [] => Ok w
  | r :: rest =>
      let* R := get_region w r in
      let* m := m_train P (r_model R) d in
      train_each_on (set_region w r (with_model R m)) rest d
  end.

(** `f` for every region in turn, src/Apollo.cpp lines 505-508. *)
Fixpoint each_region (f : world -> nat -> outcome world) (w : world) (rs : list nat) : outcome world :=
  match rs with
  | [] => Ok w
  | r :: rest => let* w := f w r in each_region f w rest
  end.

(** Apollo::train after the gathering, src/Apollo.cpp lines 486-511, given what training one region does. *)
Definition train_regions_by (one : world -> nat -> outcome world) (w : world) : outcome world :=
  let rs := map snd (w_registry w) in
  if truthy (cf_single_model (w_config w)) then
    let* d := merge_datasets w rs [] in train_each_on w rs d
  else each_region one w rs.

(** Apollo::train, src/Apollo.cpp lines 475-512, given what training one region does. Collective training throws
    without MPI (line 468); with it, see Model/MpiM.v. *)
Definition train_all_by (one : world -> nat -> outcome world) (w : world) : outcome world :=
  if truthy (cf_collective (w_config w)) then Throw else train_regions_by one w.

(** Region::autoTrain, src/Region.cpp lines 492-505. *)
Definition auto_train (w : world) (r : nat) : outcome world :=
  let* R := get_region w r in
  let c := w_config w in
  if negb (m_trainable (r_model R)) then Ok w
  else if truthy (cf_global_period c) && (w_executions w mod (cf_global_period c mod 2 ^ 64) =? 0) then
    train_all_by (fun w r => train_quietly w r (to_int (w_executions w))) w
  else if truthy (cf_region_period c) && (Z.rem (r_idx R) (cf_region_period c) =? 0) then
    train_quietly w r (r_idx R)
  else if (0 <? r_min_training R) && (r_min_training R <=? ds_size (r_dataset R)) then
    train_quietly w r (r_idx R)
  else Ok w.

(** ** Collecting measurements *)

(** A row of the region's trace, src/Region.cpp lines 517-524. *)
Definition trace_row (w : world) (R : region) (c : context) (metric : f64) : bytes :=
  print_Z (w_rank w) ++ $" " ++ m_name (r_model R) ++ $" " ++ r_name R ++ $" " ++ print_Z (c_idx c) ++ $" " ++
  List.concat (map (fun f => print_float f ++ $" ") (c_features c)) ++ print_Z (c_policy c) ++ $" " ++
  print_float metric ++ [nl].

(** Dataset::insert takes the features by reference and moves them into its key, src/Dataset.cpp lines 28-32: the vector
    of the context is left empty. Only the synchronous context of the region outlives the collection, src/Region.cpp
    lines 430-435. *)
Definition moved_features (r : nat) (p : ctxptr) (c : context) (R : region) : region :=
  if is_sync_of r p then with_sync R (mkContext [] (c_policy c) (c_idx c) (c_timer c)) else R.

(** Region::collectContext, src/Region.cpp lines 507-536, with destroyRegionContext, lines 430-435. *)
Definition collect_context (w : world) (r : nat) (p : ctxptr) (metric : f64) : outcome world :=
  let* R := get_region w r in
  let* c := get_context w p in
  let R := if truthy (cf_trace_csv (w_config w)) then with_trace R (r_trace R ++ trace_row w R c metric) else R in
  let* R :=
    if truthy (cf_persistent (w_config w)) || m_trainable (r_model R)
    then let* d := ds_insert (r_dataset R) (c_features c) (c_policy c) metric in Ok (with_dataset (moved_features r p c R) d)
    else Ok R in
  let w := count_execution (set_region w r R) in
  let* w := auto_train w r in
  let* w := if is_sync_of r p then Ok w else delete_context w p in
  let* R := get_region w r in
  Ok (set_region w r (with_current R None)).

(** The std::remove_if loop of collectPendingContexts, src/Region.cpp lines 551-566: the contexts kept. *)
Fixpoint collect_loop (w : world) (r : nat) (ps : list ctxptr) : outcome (world * list ctxptr) :=
  match ps with
  | [] => Ok (w, [])
  | p :: rest =>
      let* c := get_context w p in
      let* d := timer_done (c_timer c) in
      match d with
      | Some metric => let* w := collect_context w r p metric in collect_loop w r rest
      | None => let* (w, kept) := collect_loop w r rest in Ok (w, p :: kept)
      end
  end.

(** Region::collectPendingContexts, src/Region.cpp lines 549-567. *)
Definition collect_pending (w : world) (r : nat) : outcome world :=
  let* R := get_region w r in
  let* (w, kept) := collect_loop w r (r_pending R) in
  let* R := get_region w r in
  Ok (set_region w r (with_pending R kept)).

(** Region::train, src/Region.cpp lines 38-114. *)
Definition region_train (w : world) (r : nat) (step : Z) (collect force : bool) : outcome world :=
  let* R := get_region w r in
  if negb force && negb (m_trainable (r_model R)) then Ok w
  else
    let* w := if collect then collect_pending w r else Ok w in
    train_body w r step.

(** Apollo::train, src/Apollo.cpp lines 475-512. *)
Definition apollo_train (w : world) (step : Z) (collect : bool) : outcome world :=
  train_all_by (fun w r => region_train w r step collect false) w.

(** ** Executions *)

(** The largest value of the int idx (include/apollo/Region.h line 63). *)
Definition idx_max : Z := 2147483647.

(** Region::begin(tk) with createRegionContext, src/Region.cpp lines 437-483. [async] chooses a device timer. *)
Definition begin_context (w : world) (r : nat) (async : bool) (now : Z * Z) : outcome (world * ctxptr) :=
  let* R := get_region w r in
  let '(R, p) :=
    if async
    then (with_heap R (r_heap R ++ [Some (mkContext [] 0 0 (Events false None))]), (r, Heap (List.length (r_heap R))))
    else (with_sync R (mkContext [] (c_policy (r_sync R)) (c_idx (r_sync R)) (c_timer (r_sync R))), (r, Sync)) in
  if r_idx R =? idx_max then UB
  else
    let w := set_region w r (with_idx (with_current R (Some p)) (r_idx R + 1)) in
    let* c := get_context w p in
    Ok (set_context w p (mkContext (c_features c) (c_policy c) (r_idx R) (timer_start now (c_timer c))), p).

(** Region::begin(features), src/Region.cpp lines 485-490. *)
Definition begin_features (w : world) (r : nat) (features : list f32) (now : Z * Z) : outcome (world * ctxptr) :=
  let* (w, p) := begin_context w r false now in
  let* c := get_context w p in
  Ok (set_context w p (mkContext features (c_policy c) (c_idx c) (c_timer c)), p).

(** Region::setFeature, src/Region.cpp lines 594-598. *)
Definition set_feature (w : world) (p : ctxptr) (x : f32) : outcome world :=
  let* c := get_context w p in
  Ok (set_context w p (mkContext (c_features c ++ [x]) (c_policy c) (c_idx c) (c_timer c))).

(** The policy trace, src/Region.cpp lines 120-134. *)
Definition trace_policy (w : world) (R : region) (c : context) (choice : Z) : outcome world :=
  if negb (truthy (cf_trace_policy (w_config w))) then Ok w
  else
    let* fs := trace_features (c_features c) in
    let text := $"Rank " ++ print_Z (w_rank w) ++ $" region " ++ r_name R ++ $" model " ++ m_name (r_model R) ++
      $" features [ " ++ fs ++ $"] policy " ++ print_Z choice ++ [nl] in
    Ok (set_files w (file_append ($"rank-" ++ print_Z (w_rank w) ++ $"-policies.txt") text (w_files w))).

(** Region::getPolicyIndex, src/Region.cpp lines 116-151. *)
Definition get_policy_index (w : world) (r : nat) (p : ctxptr) (D : draws) : outcome (world * Z) :=
  let* R := get_region w r in
  let* c := get_context w p in
  let* (choice, m) := m_get_index P D (r_model R) (c_features c) in
  let* w := trace_policy w R c choice in
  let w := set_region w r (with_model R m) in
  let* c := get_context w p in
  Ok (set_context w p (mkContext (c_features c) choice (c_idx c) (c_timer c)), choice).

(** Region::end(context, metric), src/Region.cpp lines 538-547. *)
Definition end_metric (w : world) (r : nat) (p : ctxptr) (metric : f64) : outcome world :=
  let* w := collect_context w r p metric in
  collect_pending w r.

(** Region::end(context), src/Region.cpp lines 569-580. [early]: the device reaches the stop event before line 579
    asks for it. *)
Definition end_context (w : world) (r : nat) (p : ctxptr) (now : Z * Z) (early : option f32) : outcome world :=
  let* c := get_context w p in
  let t := timer_stop now (c_timer c) in
  let w := set_context w p (mkContext (c_features c) (c_policy c) (c_idx c) t) in
  if is_sync_of r p then
    let* d := timer_done t in
    match d with
    | Some metric => collect_context w r p metric
    | None => UB
    end
  else
    let* R := get_region w r in
    let w := set_region w r (with_pending R (r_pending R ++ [p])) in
    collect_pending (match early with Some ms => complete w (p, ms) | None => w end) r.

(** ** Creation and destruction *)

(** `strncpy(name, regionName, 63); name[63] = 0`, src/Region.cpp lines 266-267, read as a C string. *)
Definition region_name (s : bytes) : bytes := firstn 63 (cstr s).

(** operator< of std::string: bytes compared as unsigned. *)
Fixpoint bytes_lt (a b : bytes) : bool :=
  match a, b with
  | _, [] => false
  | [], _ :: _ => true
  | x :: a', y :: b' =>
      if (N_of_ascii x <? N_of_ascii y)%N then true
      else if (N_of_ascii y <? N_of_ascii x)%N then false
      else bytes_lt a' b'
  end.

(** `apollo->regions.insert({name, this})`, src/Region.cpp line 402: a name already there keeps its region. *)
Fixpoint register (name : bytes) (r : nat) (m : list (bytes * nat)) : list (bytes * nat) :=
  match m with
  | [] => [(name, r)]
  | (n, x) :: rest =>
      if bytes_lt name n then (name, r) :: m
      else if bytes_lt n name then (n, x) :: register name r rest
      else m
  end.

(** The replacement of StaticRegion, src/Region.cpp lines 274-287: name, parameters, model string. *)
Definition resolve_static_region (name : bytes) (info model_name : bytes) (ps : params)
  : outcome (bytes * params * bytes) :=
  if bytes_eqb model_name ($"StaticRegion") then
    match param_find name ps with
    | None => Abort
    | Some policy => Ok ($"Static", [($"policy", policy)], $"Static,policy=" ++ policy)
    end
  else Ok (model_name, ps, info).

(** Loading the model a file holds, src/Region.cpp lines 294-314. *)
Definition load_models (w : world) (name yaml model_name : bytes) (ps : params) (m : model) : outcome model :=
  let* m := match yaml with [] => Ok m | _ => m_load m (file_find yaml (w_files w)) end in
  match param_find ($"load") ps with
  | None => Ok m
  | Some v =>
      let path := match v with [] => model_load_file (w_config w) (w_rank w) model_name name | _ => v end in
      match file_find path (w_files w) with
      | Some text => m_load m (Some text)
      | None => Abort
      end
  end.

(** `dataset.load(ifs)`, src/Region.cpp lines 321, 340, 373. *)
Definition load_dataset (w : world) (r : nat) (text : bytes) : outcome world :=
  let* R := get_region w r in
  let* (d, _) := ds_load (r_dataset R) text in
  Ok (set_region w r (with_dataset R d)).

(** APOLLO_PERSISTENT_DATASETS, src/Region.cpp lines 316-327. *)
Definition load_persistent (w : world) (r : nat) (name : bytes) : outcome world :=
  if truthy (cf_persistent (w_config w)) then
    let* w := match file_find (dataset_file (w_config w) name) (w_files w) with
              | Some text => load_dataset w r text
              | None => Ok w
              end in
    auto_train w r
  else Ok w.

(** The parameter load-dataset, src/Region.cpp lines 329-348. *)
Definition load_and_train (w : world) (r : nat) (name : bytes) (ps : params) : outcome world :=
  match param_find ($"load-dataset") ps with
  | None => Ok w
  | Some _ =>
      match file_find (dataset_file (w_config w) name) (w_files w) with
      | None => Abort
      | Some text =>
          let* w := load_dataset w r text in
          let* R := get_region w r in
          if ds_size (r_dataset R) <=? 0 then Abort else region_train w r 0 true false
      end
  end.

(** The file of Optimal, src/Region.cpp lines 350-360. *)
Definition load_optimal (w : world) (r : nat) (name model_name : bytes) : outcome world :=
  if bytes_eqb model_name ($"Optimal") then
    match file_find (optimal_file (w_rank w) name) (w_files w) with
    | None => Abort
    | Some text =>
        let* R := get_region w r in
        let* m := m_load (r_model R) (Some text) in
        Ok (set_region w r (with_model R m))
    end
  else Ok w.

(** The dataset of DatasetMap, src/Region.cpp lines 362-380. *)
Definition load_dataset_map (w : world) (r : nat) (name model_name : bytes) : outcome world :=
  if bytes_eqb model_name ($"DatasetMap") then
    match file_find (dataset_file (w_config w) name) (w_files w) with
    | None => Abort
    | Some text =>
        let* w := load_dataset w r text in
        let* R := get_region w r in
        if ds_size (r_dataset R) <=? 0 then Abort
        else let* m := m_train P (r_model R) (r_dataset R) in Ok (set_region w r (with_model R m))
    end
  else Ok w.

(** The header of the trace, src/Region.cpp lines 393-398. *)
Definition trace_header (num_features : Z) : bytes :=
  $"rankid training region idx" ++
  List.concat (map (fun i => $" f" ++ print_Z (Z.of_nat i)) (seq 0 (Z.to_nat num_features))) ++ $" policy xtime" ++ [nl].

(** Region::Region, src/Region.cpp lines 247-405. *)
Definition new_region (w : world) (num_features : Z) (regionName : bytes) (num_policies min_training : Z)
  (model_info yaml : bytes) (init : nat -> nat -> f64) : outcome (world * nat) :=
  let name := region_name regionName in
  let info := match model_info with [] => cf_policy_model (w_config w) | _ => model_info end in
  let* (model_name, ps) := parse_policy_model info in
  let* (model_name, ps, info) := resolve_static_region name info model_name ps in
  let* m := create_model P model_name num_features num_policies ps init in
  let* m := load_models w name yaml model_name ps m in
  let r := List.length (w_regions w) in
  let R := mkRegion true name num_features num_policies min_training info model_name m [] 0 None
    (mkContext [] 0 0 (Clock None None)) [] [] [] in
  let w := mkWorld (w_config w) (w_rank w) (w_regions w ++ [R]) (w_registry w) (w_executions w) (w_files w) in
  let* w := load_persistent w r name in
  let* w := load_and_train w r name ps in
  let* w := load_optimal w r name model_name in
  let* w := load_dataset_map w r name model_name in
  let* w := if truthy (cf_trace_csv (w_config w))
            then let* R := get_region w r in Ok (set_region w r (with_trace R (r_trace R ++ trace_header num_features)))
            else Ok w in
  Ok (mkWorld (w_config w) (w_rank w) (w_regions w) (register name r (w_registry w)) (w_executions w) (w_files w), r).

(** `while (pending_contexts.size() > 0) collectPendingContexts();`, src/Region.cpp lines 411-412. The timers that
    complete before each iteration are given, those left over complete after the loop; when the list ends and contexts
    are still pending the loop is still running ([Fuel]). *)
Fixpoint drain (w : world) (r : nat) (waits : list (list (ctxptr * f32))) : outcome world :=
  let* R := get_region w r in
  match r_pending R with
  | [] => Ok (fold_left complete (List.concat waits) w)
  | _ :: _ =>
      match waits with
      | [] => Fuel
      | batch :: rest => let* w := collect_pending (fold_left complete batch w) r in drain w r rest
      end
  end.

(** `Config::APOLLO_GLOBAL_TRAIN_PERIOD = 0`, src/Region.cpp line 410. *)
Definition disable_global_period (w : world) : world :=
  let c := w_config w in
  mkWorld (mkConfig (cf_policy_model c) (cf_collective c) (cf_local c) (cf_single_model c) (cf_region_model c) 0
      (cf_region_period c) (cf_trace_policy c) (cf_store_models c) (cf_trace_retrain c) (cf_trace_allgather c)
      (cf_trace_best c) (cf_retrain c) (cf_retrain_time c) (cf_retrain_region c) (cf_trace_csv c) (cf_persistent c)
      (cf_exec_info c) (cf_output_dir c) (cf_datasets_dir c) (cf_traces_dir c) (cf_models_dir c))
    (w_rank w) (w_regions w) (w_registry w) (w_executions w) (w_files w).

(** Region::~Region, src/Region.cpp lines 407-428. *)
Definition destroy_region (w : world) (r : nat) (waits : list (list (ctxptr * f32))) : outcome world :=
  let w := disable_global_period w in
  let* w := drain w r waits in
  let* R := get_region w r in
  let w := if truthy (cf_persistent (w_config w))
           then set_files w (file_write (dataset_file (w_config w) (r_name R)) (ds_store (r_dataset R)) (w_files w))
           else w in
  Ok (set_region w r (with_alive R false)).

(** The lines of apollo_exec_info.csv, src/Apollo.cpp lines 247-250. *)
Fixpoint exec_info_lines (w : world) (rs : list nat) : outcome bytes :=
  match rs with
  | [] => Ok []
  | r :: rest =>
      let* R := get_region w r in
      let* s := exec_info_lines w rest in
      Ok (r_name R ++ $", " ++ print_Z (r_idx R) ++ [nl] ++ s)
  end.

(** `delete r` for every registered region, src/Apollo.cpp lines 253-256. *)
Fixpoint destroy_all (w : world) (rs : list nat) (waits : nat -> list (list (ctxptr * f32))) : outcome world :=
  match rs with
  | [] => Ok w
  | r :: rest => let* w := destroy_region w r (waits r) in destroy_all w rest waits
  end.

(** Apollo::~Apollo, src/Apollo.cpp lines 240-262. *)
Definition shutdown (w : world) (waits : nat -> list (list (ctxptr * f32))) : outcome world :=
  let rs := map snd (w_registry w) in
  let* w :=
    if truthy (cf_exec_info (w_config w)) then
      let* s := exec_info_lines w rs in
      Ok (set_files w (file_write (in_dir (cf_output_dir (w_config w)) ($"apollo_exec_info.csv")) s (w_files w)))
    else Ok w in
  destroy_all w rs waits.

(** ** Runs *)

(** The public calls: include/apollo/Region.h lines 38-76, include/apollo/Apollo.h lines 48-49, the C interface of
    src/Apollo.cpp lines 514-556, and the destructors. A missing context stands for the context-free calls, which use
    current_context. [OpComplete] is the environment's event. *)
Inductive op :=
| OpRegion (num_features : Z) (name : bytes) (num_policies min_training : Z) (model_info yaml : bytes)
    (init : nat -> nat -> f64)
| OpBegin (r : nat) (async : bool) (now : Z * Z)
| OpBeginFeatures (r : nat) (features : list f32) (now : Z * Z)
| OpSetFeature (r : nat) (p : option ctxptr) (x : f32)
| OpGetPolicy (r : nat) (p : option ctxptr) (D : draws)
| OpEnd (r : nat) (p : option ctxptr) (now : Z * Z) (early : option f32)
| OpEndMetric (r : nat) (p : option ctxptr) (metric : f64)
| OpTrain (r : nat) (step : Z) (collect force : bool)
| OpTrainAll (step : Z) (collect : bool)
| OpCollect (r : nat)
| OpDestroy (r : nat) (waits : list (list (ctxptr * f32)))
| OpShutdown (waits : nat -> list (list (ctxptr * f32)))
| OpComplete (p : ctxptr) (ms : f32).

(** What a call returns. include/apollo/Region.h lines 38-61. *)
Inductive result := Done | GotRegion (r : nat) | GotContext (p : ctxptr) | GotPolicy (c : Z).

(** The context argument of a call: the deprecated calls, src/Region.cpp lines 582-604, use current_context, and
    dereferencing it when null is undefined. *)
Definition resolve (w : world) (r : nat) (p : option ctxptr) : outcome ctxptr :=
  match p with
  | Some p => Ok p
  | None =>
      let* R := get_region w r in
      match r_current R with
      | Some p => Ok p
      | None => UB
      end
  end.

(** One call. A member function called through the pointer of a destroyed region is undefined.
    include/apollo/Region.h lines 38-76. *)
Definition step (w : world) (o : op) : outcome (world * result) :=
  match o with
  | OpRegion nf name np mt info yaml init =>
      let* (w, r) := new_region w nf name np mt info yaml init in Ok (w, GotRegion r)
  | OpBegin r async now =>
      let* (w, p) := begin_context w r async now in Ok (w, GotContext p)
  | OpBeginFeatures r fs now =>
      let* (w, p) := begin_features w r fs now in Ok (w, GotContext p)
  | OpSetFeature r p x =>
      let* _ := get_region w r in
      let* p := resolve w r p in let* w := set_feature w p x in Ok (w, Done)
  | OpGetPolicy r p D =>
      let* p := resolve w r p in let* (w, c) := get_policy_index w r p D in Ok (w, GotPolicy c)
  | OpEnd r p now early =>
      let* _ := get_region w r in
      let* p := resolve w r p in let* w := end_context w r p now early in Ok (w, Done)
  | OpEndMetric r p x =>
      let* p := resolve w r p in let* w := end_metric w r p x in Ok (w, Done)
  | OpTrain r st collect force => let* w := region_train w r st collect force in Ok (w, Done)
  | OpTrainAll st collect => let* w := apollo_train w st collect in Ok (w, Done)
  | OpCollect r => let* w := collect_pending w r in Ok (w, Done)
  | OpDestroy r waits => let* w := destroy_region w r waits in Ok (w, Done)
  | OpShutdown waits => let* w := shutdown w waits in Ok (w, Done)
  | OpComplete p ms => Ok (complete w (p, ms), Done)
  end.

(** A run: calls in order, with their results.
    The client of include/apollo/Region.h and include/apollo/Apollo.h, lines 38-76 and 36-59. *)
Fixpoint run (w : world) (os : list op) : outcome (world * list result) :=
  match os with
  | [] => Ok (w, [])
  | o :: rest =>
      let* (w, x) := step w o in
      let* (w, xs) := run w rest in
      Ok (w, x :: xs)
  end.
End Platform.

(** The process after Apollo::Apollo, src/Apollo.cpp lines 120-238, with the files that exist then. *)
Definition start_world (c : config) (files : list (bytes * bytes)) : world := mkWorld c 0 [] [] 0 files.
