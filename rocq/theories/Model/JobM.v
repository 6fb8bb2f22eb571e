(** Jobs whose ranks run at their own pace: Region::autoTrain can start collective training in the middle of a call, and a
    rank that does waits in MPI_Allgather (src/Apollo.cpp lines 365-366) until every other rank has come there too.
    [RuntimeM] and [MpiM] give the calls of a rank and the exchange; here the calls that can wait are written again so
    that they can stop there and go on afterwards. A rank that has made all its calls comes to MPI_Finalize and takes part
    in no further exchange. A rank that fails stays as it is; that MPI then aborts the others is not modelled. *)
From Coq Require Import ZArith Bool Ascii String List.
From Verif Require Import Model.Base Model.Float Model.Decimal Model.DatasetM Model.ModelStringM Model.PolicyModelsM Model.ConfigM
  Model.RuntimeM Model.MpiM.
Import ListNotations.
Open Scope Z_scope.

(** A call that has come to an end, or waits for the exchange with the state [w], the argument [step] of
    gatherCollectiveTrainingData and what is left to do. src/Apollo.cpp lines 331-366. *)
Inductive call (A : Type) :=
| Return (x : outcome A)
| Wait (w : world) (step : Z) (k : world -> call A).
Arguments Return {A}. Arguments Wait {A}.

(** One piece of a call after another, as in src/Region.cpp lines 530-535. *)
Fixpoint then_ {A B} (x : call A) (f : A -> call B) : call B :=
  match x with
  | Return (Ok a) => f a
  | Return Throw => Return Throw
  | Return Abort => Return Abort
  | Return UB => Return UB
  | Return Fuel => Return Fuel
  | Wait w st k => Wait w st (fun w => then_ (k w) f)
  end.
Notation "'let!' x := e 'in' f" := (then_ e (fun x => f)) (at level 200, x pattern, right associativity).

Section Calls.
Variable P : platform.

(** `reg->train(step, ...)` for every region in turn, src/Apollo.cpp lines 505-508. *)
Fixpoint c_each_region (f : world -> nat -> call world) (w : world) (rs : list nat) : call world :=
  match rs with
  | [] => Return (Ok w)
  | r :: rest => let! w := f w r in c_each_region f w rest
  end.

(** Apollo::train after the gathering, src/Apollo.cpp lines 486-511. *)
Definition c_train_regions (one : world -> nat -> call world) (w : world) : call world :=
  let rs := map snd (w_registry w) in
  if truthy (cf_single_model (w_config w)) then
    Return (let* d := merge_datasets w rs [] in train_each_on P w rs d)
  else c_each_region one w rs.

(** Apollo::train, src/Apollo.cpp lines 475-512. *)
Definition c_train_all (one : world -> nat -> call world) (w : world) (step : Z) : call world :=
  if truthy (cf_collective (w_config w)) then Wait w step (c_train_regions one) else c_train_regions one w.

(** Region::autoTrain, src/Region.cpp lines 492-505. *)
Definition c_auto_train (w : world) (r : nat) : call world :=
  let! R := Return (get_region w r) in
  let c := w_config w in
  if negb (m_trainable (r_model R)) then Return (Ok w)
  else if truthy (cf_global_period c) && (w_executions w mod (cf_global_period c mod 2 ^ 64) =? 0) then
    let st := to_int (w_executions w) in c_train_all (fun w r => Return (train_quietly P w r st)) w st
  else if truthy (cf_region_period c) && (Z.rem (r_idx R) (cf_region_period c) =? 0) then
    Return (train_quietly P w r (r_idx R))
  else if (0 <? r_min_training R) && (r_min_training R <=? ds_size (r_dataset R)) then
    Return (train_quietly P w r (r_idx R))
  else Return (Ok w).

(** Region::collectContext before autoTrain, src/Region.cpp lines 507-530. *)
Definition record_context (w : world) (r : nat) (p : ctxptr) (metric : f64) : outcome world :=
  let* R := get_region w r in
  let* c := get_context w p in
  let R := if truthy (cf_trace_csv (w_config w)) then with_trace R (r_trace R ++ trace_row w R c metric) else R in
  let* R :=
    if truthy (cf_persistent (w_config w)) || m_trainable (r_model R)
    then let* d := ds_insert (r_dataset R) (c_features c) (c_policy c) metric in Ok (with_dataset (moved_features r p c R) d)
    else Ok R in
  Ok (count_execution (set_region w r R)).

(** Region::collectContext after autoTrain, src/Region.cpp lines 534-535. *)
Definition release_context (w : world) (r : nat) (p : ctxptr) : outcome world :=
  let* w := if is_sync_of r p then Ok w else delete_context w p in
  let* R := get_region w r in
  Ok (set_region w r (with_current R None)).

(** Region::collectContext, src/Region.cpp lines 507-536. *)
Definition c_collect_context (w : world) (r : nat) (p : ctxptr) (metric : f64) : call world :=
  let! w := Return (record_context w r p metric) in
  let! w := c_auto_train w r in
  Return (release_context w r p).

(** The std::remove_if loop of collectPendingContexts, src/Region.cpp lines 551-566. *)
Fixpoint c_collect_loop (w : world) (r : nat) (ps : list ctxptr) : call (world * list ctxptr) :=
  match ps with
  | [] => Return (Ok (w, []))
  | p :: rest =>
      let! c := Return (get_context w p) in
      let! d := Return (timer_done (c_timer c)) in
      match d with
      | Some metric => let! w := c_collect_context w r p metric in c_collect_loop w r rest
      | None => let! (w, kept) := c_collect_loop w r rest in Return (Ok (w, p :: kept))
      end
  end.

(** Region::collectPendingContexts, src/Region.cpp lines 549-567. *)
Definition c_collect_pending (w : world) (r : nat) : call world :=
  let! R := Return (get_region w r) in
  let! (w, kept) := c_collect_loop w r (r_pending R) in
  let! R := Return (get_region w r) in
  Return (Ok (set_region w r (with_pending R kept))).

(** Region::train, src/Region.cpp lines 38-114. *)
Definition c_region_train (w : world) (r : nat) (step : Z) (collect force : bool) : call world :=
  let! R := Return (get_region w r) in
  if negb force && negb (m_trainable (r_model R)) then Return (Ok w)
  else
    let! w := if collect then c_collect_pending w r else Return (Ok w) in
    Return (train_body P w r step).

(** Apollo::train, src/Apollo.cpp lines 475-512. *)
Definition c_apollo_train (w : world) (step : Z) (collect : bool) : call world :=
  c_train_all (fun w r => c_region_train w r step collect false) w step.

(** Region::end(context, metric), src/Region.cpp lines 538-547. *)
Definition c_end_metric (w : world) (r : nat) (p : ctxptr) (metric : f64) : call world :=
  let! w := c_collect_context w r p metric in
  c_collect_pending w r.

(** Region::end(context), src/Region.cpp lines 569-580. *)
Definition c_end_context (w : world) (r : nat) (p : ctxptr) (now : Z * Z) (early : option f32) : call world :=
  let! c := Return (get_context w p) in
  let t := timer_stop now (c_timer c) in
  let w := set_context w p (mkContext (c_features c) (c_policy c) (c_idx c) t) in
  if is_sync_of r p then
    let! d := Return (timer_done t) in
    match d with
    | Some metric => c_collect_context w r p metric
    | None => Return UB
    end
  else
    let! R := Return (get_region w r) in
    let w := set_region w r (with_pending R (r_pending R ++ [p])) in
    c_collect_pending (match early with Some ms => complete w (p, ms) | None => w end) r.

(** APOLLO_PERSISTENT_DATASETS, src/Region.cpp lines 316-327. *)
Definition c_load_persistent (w : world) (r : nat) (name : bytes) : call world :=
  if truthy (cf_persistent (w_config w)) then
    let! w := Return (match file_find (dataset_file (w_config w) name) (w_files w) with
                      | Some text => load_dataset w r text
                      | None => Ok w
                      end) in
    c_auto_train w r
  else Return (Ok w).

(** The parameter load-dataset, src/Region.cpp lines 329-348. *)
Definition c_load_and_train (w : world) (r : nat) (name : bytes) (ps : params) : call world :=
  match param_find ($"load-dataset") ps with
  | None => Return (Ok w)
  | Some _ =>
      match file_find (dataset_file (w_config w) name) (w_files w) with
      | None => Return Abort
      | Some text =>
          let! w := Return (load_dataset w r text) in
          let! R := Return (get_region w r) in
          if ds_size (r_dataset R) <=? 0 then Return Abort else c_region_train w r 0 true false
      end
  end.

(** Region::Region, src/Region.cpp lines 247-405. *)
Definition c_new_region (w : world) (num_features : Z) (regionName : bytes) (num_policies min_training : Z)
  (model_info yaml : bytes) (init : nat -> nat -> f64) : call (world * nat) :=
  let name := region_name regionName in
  let info := match model_info with [] => cf_policy_model (w_config w) | _ => model_info end in
  let! (model_name, ps) := Return (parse_policy_model info) in
  let! (model_name, ps, info) := Return (resolve_static_region name info model_name ps) in
  let! m := Return (create_model P model_name num_features num_policies ps init) in
  let! m := Return (load_models w name yaml model_name ps m) in
  let r := List.length (w_regions w) in
  let R := mkRegion true name num_features num_policies min_training info model_name m [] 0 None
    (mkContext [] 0 0 (Clock None None)) [] [] [] in
  let w := mkWorld (w_config w) (w_rank w) (w_regions w ++ [R]) (w_registry w) (w_executions w) (w_files w) in
  let! w := c_load_persistent w r name in
  let! w := c_load_and_train w r name ps in
  let! w := Return (load_optimal w r name model_name) in
  let! w := Return (load_dataset_map P w r name model_name) in
  let! w := Return (if truthy (cf_trace_csv (w_config w))
                    then let* R := get_region w r in Ok (set_region w r (with_trace R (r_trace R ++ trace_header num_features)))
                    else Ok w) in
  Return (Ok (mkWorld (w_config w) (w_rank w) (w_regions w) (register name r (w_registry w)) (w_executions w) (w_files w), r)).

(** One call. The destructors set the global period to 0 before they collect (src/Region.cpp line 410) and never wait, nor
    do the calls that neither collect nor train. include/apollo/Region.h lines 38-76. *)
Definition c_step (w : world) (o : op) : call (world * result) :=
  match o with
  | OpRegion nf name np mt info yaml init =>
      let! (w, r) := c_new_region w nf name np mt info yaml init in Return (Ok (w, GotRegion r))
  | OpEnd r p now early =>
      let! _ := Return (get_region w r) in
      let! p := Return (resolve w r p) in let! w := c_end_context w r p now early in Return (Ok (w, Done))
  | OpEndMetric r p x =>
      let! p := Return (resolve w r p) in let! w := c_end_metric w r p x in Return (Ok (w, Done))
  | OpTrain r st collect force => let! w := c_region_train w r st collect force in Return (Ok (w, Done))
  | OpTrainAll st collect => let! w := c_apollo_train w st collect in Return (Ok (w, Done))
  | OpCollect r => let! w := c_collect_pending w r in Return (Ok (w, Done))
  | _ => Return (step P w o)
  end.

(** ** The ranks of a job *)

(** A rank between two calls, with those still to be made; a rank in a call; a rank that failed.
    src/Apollo.cpp lines 331-512. *)
Inductive rank :=
| Ready (w : world) (os : list op)
| Waiting (w : world) (step : Z) (k : world -> call (world * result)) (os : list op)
| Failed (x : outcome unit).

(** A rank whose call has run as far as it can, with the calls after it. src/Apollo.cpp lines 331-512. *)
Definition after_call (x : call (world * result)) (os : list op) : rank :=
  match x with
  | Return (Ok (w, _)) => Ready w os
  | Return Throw => Failed Throw
  | Return Abort => Failed Abort
  | Return UB => Failed UB
  | Return Fuel => Failed Fuel
  | Wait w st k => Waiting w st k os
  end.

(** What the ranks bring to the exchange, if all of them have come to it. src/Apollo.cpp lines 331-375. *)
Fixpoint all_waiting (J : list rank) : option (list (world * Z)) :=
  match J with
  | [] => Some []
  | Waiting w st _ _ :: rest => match all_waiting rest with Some l => Some ((w, st) :: l) | None => None end
  | _ :: _ => None
  end.

(** The exchange, src/Apollo.cpp lines 331-470: every rank with its own argument. *)
Definition exchange (M : mpi) (l : list (world * Z)) : outcome (list world) :=
  let* bufs := on_each (send_buffer M) (map fst l) in
  let* m := received bufs in
  on_each (fun x => receive M (fst x) m (snd x)) l.

(** The ranks go on with what the exchange left. src/Apollo.cpp lines 463-512. *)
Fixpoint resume (J : list rank) (ws : list world) : list rank :=
  match J, ws with
  | Waiting _ _ k os :: J', w :: ws' => after_call (k w) os :: resume J' ws'
  | _, _ => []
  end.

(** All ranks exchange their measurements and go on, or all fail. src/Apollo.cpp lines 331-512. *)
Definition exchange_all (M : mpi) (J : list rank) (l : list (world * Z)) : list rank :=
  match exchange M l with
  | Ok ws => resume J ws
  | Throw => map (fun _ => Failed Throw) J
  | Abort => map (fun _ => Failed Abort) J
  | UB => map (fun _ => Failed UB) J
  | Fuel => map (fun _ => Failed Fuel) J
  end.

(** A step of a job: rank [i] makes its next call as far as it gets, or all ranks exchange their measurements.
    src/Apollo.cpp lines 331-512. *)
Inductive job_moves (M : mpi) : list rank -> list rank -> Prop :=
| rank_moves J i w o os : nth_error J i = Some (Ready w (o :: os)) ->
    job_moves M J (set_nth J i (after_call (c_step w o) os))
| ranks_exchange J l : J <> [] -> all_waiting J = Some l -> job_moves M J (exchange_all M J l).

(** The steps of a job, in any order. src/Apollo.cpp lines 331-512. *)
Inductive job_runs (M : mpi) : list rank -> list rank -> Prop :=
| runs_none J : job_runs M J J
| runs_more J J' J'' : job_moves M J J' -> job_runs M J' J'' -> job_runs M J J''.

(** A job of which rank [i] makes the [i]-th list of calls. src/Apollo.cpp lines 120-238. *)
Definition new_job (cs : list (config * list (bytes * bytes))) (programs : list (list op)) : list rank :=
  map (fun x => Ready (fst x) (snd x)) (combine (start_job cs) programs).
End Calls.
