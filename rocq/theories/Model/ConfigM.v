(** Start-up of the runtime: the settings (include/apollo/Config.h lines 14-35) and Apollo::Apollo
    (src/Apollo.cpp lines 120-238).

    Simplifications. The messages printed are left out. The environment is a function from names to values, the
    results of mkdir (lines 85-91) and of opening the trace file (line 230) are parameters. *)
From Coq Require Import List ZArith Bool Ascii String.
From Verif Require Import Model.Base Model.Float Model.Decimal.
Import ListNotations.
Open Scope Z_scope.

(** The static members of Config, include/apollo/Config.h lines 14-35. *)
Record config := mkConfig {
  cf_policy_model : bytes;
  cf_collective : Z;
  cf_local : Z;
  cf_single_model : Z;
  cf_region_model : Z;
  cf_global_period : Z;
  cf_region_period : Z;
  cf_trace_policy : Z;
  cf_store_models : Z;
  cf_trace_retrain : Z;
  cf_trace_allgather : Z;
  cf_trace_best : Z;
  cf_retrain : Z;
  cf_retrain_time : f32;
  cf_retrain_region : f32;
  cf_trace_csv : Z;
  cf_persistent : Z;
  cf_exec_info : Z;
  cf_output_dir : bytes;
  cf_datasets_dir : bytes;
  cf_traces_dir : bytes;
  cf_models_dir : bytes
}.

(** An int used as a condition, as in `if (Config::APOLLO_TRACE_CSV)`. E.g. src/Region.cpp line 510. *)
Definition truthy (z : Z) : bool := negb (z =? 0).

(** getenv. src/Apollo.cpp line 71. *)
Definition environment := bytes -> option bytes.

(** safeGetEnv, src/Apollo.cpp lines 67-82. *)
Definition get_env (env : environment) (name default : bytes) : bytes :=
  match env name with Some v => v | None => default end.

(** `std::stoi(apolloUtils::safeGetEnv(name, default))`, src/Apollo.cpp lines 127-150 and 155-160. *)
Definition env_int (env : environment) (name default : bytes) : outcome Z :=
  let* (z, _) := stoi (get_env env name default) in Ok z.

(** `std::stof(apolloUtils::safeGetEnv(name, default))`, src/Apollo.cpp lines 151-154. *)
Definition env_float (env : environment) (name default : bytes) : outcome f32 :=
  let* (x, _) := stof (get_env env name default) in Ok x.

(** Reading the settings, src/Apollo.cpp lines 125-168. *)
Definition read_config (env : environment) : outcome config :=
  let policy_model := get_env env ($"APOLLO_POLICY_MODEL") ($"Static,policy=0") in
  let* collective := env_int env ($"APOLLO_COLLECTIVE_TRAINING") ($"0") in
  let* local := env_int env ($"APOLLO_LOCAL_TRAINING") ($"1") in
  let* single := env_int env ($"APOLLO_SINGLE_MODEL") ($"0") in
  let* region := env_int env ($"APOLLO_REGION_MODEL") ($"1") in
  let* global_period := env_int env ($"APOLLO_GLOBAL_TRAIN_PERIOD") ($"0") in
  let* region_period := env_int env ($"APOLLO_PER_REGION_TRAIN_PERIOD") ($"0") in
  let* trace_policy := env_int env ($"APOLLO_TRACE_POLICY") ($"0") in
  let* store_models := env_int env ($"APOLLO_STORE_MODELS") ($"0") in
  let* trace_retrain := env_int env ($"APOLLO_TRACE_RETRAIN") ($"0") in
  let* trace_allgather := env_int env ($"APOLLO_TRACE_ALLGATHER") ($"0") in
  let* trace_best := env_int env ($"APOLLO_TRACE_BEST_POLICIES") ($"0") in
  let* retrain := env_int env ($"APOLLO_RETRAIN_ENABLE") ($"0") in
  let* retrain_time := env_float env ($"APOLLO_RETRAIN_TIME_THRESHOLD") ($"2.0") in
  let* retrain_region := env_float env ($"APOLLO_RETRAIN_REGION_THRESHOLD") ($"0.5") in
  let* trace_csv := env_int env ($"APOLLO_TRACE_CSV") ($"0") in
  let* persistent := env_int env ($"APOLLO_PERSISTENT_DATASETS") ($"0") in
  let* exec_info := env_int env ($"APOLLO_STORE_EXEC_INFO") ($"0") in
  Ok (mkConfig policy_model collective local single region global_period region_period trace_policy store_models
        trace_retrain trace_allgather trace_best retrain retrain_time retrain_region trace_csv persistent exec_info
        (get_env env ($"APOLLO_OUTPUT_DIR") ($".apollo"))
        (get_env env ($"APOLLO_DATASETS_DIR") ($"datasets"))
        (get_env env ($"APOLLO_TRACES_DIR") ($"traces"))
        (get_env env ($"APOLLO_MODELS_DIR") ($"models"))).

(** The consistency checks, src/Apollo.cpp lines 170-201. [mpi]: the build has ENABLE_MPI. *)
Definition check_config (mpi : bool) (c : config) : outcome unit :=
  if truthy (cf_collective c) && negb mpi then Abort
  else if truthy (cf_collective c) && truthy (cf_local c) then Abort
  else if negb (truthy (cf_collective c) || truthy (cf_local c)) then Abort
  else if truthy (cf_single_model c) && truthy (cf_region_model c) then Abort
  else if negb (truthy (cf_single_model c) || truthy (cf_region_model c)) then Abort
  else Ok tt.

(** createDir, src/Apollo.cpp lines 85-91; [mkdir d] tells whether the directory exists afterwards. *)
Definition create_dir (mkdir : bytes -> bool) (d : bytes) : outcome unit :=
  if mkdir d then Ok tt else Throw.

(** `dir + "/" + sub`, src/Apollo.cpp lines 206-215 and elsewhere. *)
Definition in_dir (dir sub : bytes) : bytes := (dir ++ $"/" ++ sub)%list.

(** Apollo::Apollo, src/Apollo.cpp lines 120-238. [open_trace] tells whether the trace file of lines 227-230 opens. *)
Definition apollo_ctor (mpi : bool) (env : environment) (mkdir : bytes -> bool) (open_trace : bool) : outcome config :=
  let* c := read_config env in
  let* _ := check_config mpi c in
  let* _ := create_dir mkdir (cf_output_dir c) in
  let* _ := if truthy (cf_persistent c) then create_dir mkdir (in_dir (cf_output_dir c) (cf_datasets_dir c)) else Ok tt in
  let* _ := if truthy (cf_trace_csv c) then create_dir mkdir (in_dir (cf_output_dir c) (cf_traces_dir c)) else Ok tt in
  let* _ := if truthy (cf_store_models c) then create_dir mkdir (in_dir (cf_output_dir c) (cf_models_dir c)) else Ok tt in
  if truthy (cf_trace_csv c) && negb open_trace then Abort else Ok c.

(** Apollo::instance, include/apollo/Apollo.h lines 24-28: noexcept, so an exception of the constructor ends the
    process. *)
Definition apollo_instance (mpi : bool) (env : environment) (mkdir : bytes -> bool) (open_trace : bool) : outcome config :=
  match apollo_ctor mpi env mkdir open_trace with
  | Throw => Abort
  | o => o
  end.
