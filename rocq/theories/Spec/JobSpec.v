(** Vocabulary for jobs whose ranks run at their own pace. *)
From Coq Require Import ZArith Bool List.
From Verif Require Import Model.Base Model.ConfigM Model.PolicyModelsM Model.RuntimeM Model.MpiM Model.JobM.
Import ListNotations.
Open Scope Z_scope.

(** Every rank has made all its calls. *)
Definition job_ended (J : list rank) : Prop := Forall (fun x => exists w, x = Ready w []) J.

(** Nothing can happen any more. *)
Definition job_halted (P : platform) (M : mpi) (J : list rank) : Prop := forall J', ~ job_moves P M J J'.

(** A rank on its own makes its calls without failing: up to where it waits for the others in the training for a
    step ([Some]), or all of them ([None]). *)
Inductive alone (P : platform) : world -> list op -> option Z -> Prop :=
| alone_done w : alone P w [] None
| alone_waits w o os w' st k : c_step P w o = Wait w' st k -> alone P w (o :: os) (Some st)
| alone_goes_on w o os w' x b : c_step P w o = Return (Ok (w', x)) -> alone P w' os b -> alone P w (o :: os) b.

(** The same settings, but with collective training and this global period. *)
Definition collectively (c : config) (period : Z) : config :=
  mkConfig (cf_policy_model c) 1 0 (cf_single_model c) (cf_region_model c) period (cf_region_period c) (cf_trace_policy c)
    (cf_store_models c) (cf_trace_retrain c) (cf_trace_allgather c) (cf_trace_best c) (cf_retrain c) (cf_retrain_time c)
    (cf_retrain_region c) (cf_trace_csv c) (cf_persistent c) (cf_exec_info c) (cf_output_dir c) (cf_datasets_dir c)
    (cf_traces_dir c) (cf_models_dir c).

(** Calls that measure: none of them trains or destroys, and no region asks for training by itself. *)
Definition measuring (o : op) : Prop :=
  match o with
  | OpRegion _ _ _ min_training _ _ _ => min_training <= 0
  | OpTrain _ _ _ _ | OpTrainAll _ _ | OpDestroy _ _ | OpShutdown _ => False
  | _ => True
  end.

(** Settings under which no training starts by itself. *)
Definition no_training (c : config) : Prop :=
  truthy (cf_collective c) = false /\ truthy (cf_global_period c) = false /\ truthy (cf_region_period c) = false /\ truthy (cf_persistent c) = false.

(** What one rank is given: settings, files and calls. *)
Definition plan : Type := config * list (bytes * bytes) * list op.

(** Rank [i] with this plan only measures, [n] executions when nothing trains, and leaves every model to be trained. *)
Definition measures (P : platform) (i : nat) (x : plan) (n : Z) : Prop :=
  let '(c, files, os) := x in
  no_training c /\ Forall measuring os /\ Z.of_nat (List.length os) < 2 ^ 63 /\
  exists w xs, run P (mkWorld c (Z.of_nat i) [] [] 0 files) os = Ok (w, xs) /\ w_executions w = n /\ Forall (fun R => m_trainable (r_model R) = true) (w_regions w).

(** The job in which the ranks follow their plans with collective training and this global period. *)
Definition collective_job (period : Z) (plans : list plan) : list rank :=
  new_job (map (fun x : plan => (collectively (fst (fst x)) period, snd (fst x))) plans) (map snd plans).

(** The ranks of a job measure this many executions. *)
Definition counts (P : platform) (plans : list plan) (ns : list Z) : Prop :=
  List.length ns = List.length plans /\ forall i x n, nth_error plans i = Some x -> nth_error ns i = Some n -> measures P i x n.

(** Where a rank ends that makes its calls by itself. *)
Definition end_of (P : platform) (w : world) (os : list op) : rank :=
  match run P w os with
  | Ok (w', _) => Ready w' []
  | Throw => Failed Throw
  | Abort => Failed Abort
  | UB => Failed UB
  | Fuel => Failed Fuel
  end.

(** The calls of rank [i] among the events of a job. *)
Definition calls_of (i : nat) (os : list job_op) : list op :=
  flat_map (fun o => match o with
                     | Local j o => if Nat.eqb j i then [o] else []
                     | Collective st collect => [OpTrainAll st collect]
                     end) os.
