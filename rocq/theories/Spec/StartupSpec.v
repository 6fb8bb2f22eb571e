(** What a configuration read from an environment has to satisfy. *)
From Coq Require Import List ZArith Bool Ascii String.
From Flocq Require Import BinarySingleNaN.
From Verif Require Import Model.Base Model.Float Model.Decimal Model.ConfigM.
Import ListNotations.
Open Scope Z_scope.

(** An integer setting: what the variable's text starts with, or the default when it is not set. *)
Definition int_setting (env : environment) (name : bytes) (default value : Z) : Prop :=
  match env name with
  | Some text => exists rest, stoi text = Ok (value, rest)
  | None => value = default
  end.

(** A float setting. *)
Definition float_setting (env : environment) (name : bytes) (default value : f32) : Prop :=
  match env name with
  | Some text => exists rest, stof text = Ok (value, rest)
  | None => value = default
  end.

(** A text setting. *)
Definition text_setting (env : environment) (name default value : bytes) : Prop :=
  match env name with
  | Some text => value = text
  | None => value = default
  end.

(** One half, in binary32. *)
Definition half32 : f32 := binary_normalize 24 128 eq_refl eq_refl mode_NE 1 (-1) false.

(** Every setting with its variable and default. *)
Definition settings_from (env : environment) (c : config) : Prop :=
  text_setting env ($"APOLLO_POLICY_MODEL") ($"Static,policy=0") (cf_policy_model c) /\
  int_setting env ($"APOLLO_COLLECTIVE_TRAINING") 0 (cf_collective c) /\
  int_setting env ($"APOLLO_LOCAL_TRAINING") 1 (cf_local c) /\
  int_setting env ($"APOLLO_SINGLE_MODEL") 0 (cf_single_model c) /\
  int_setting env ($"APOLLO_REGION_MODEL") 1 (cf_region_model c) /\
  int_setting env ($"APOLLO_GLOBAL_TRAIN_PERIOD") 0 (cf_global_period c) /\
  int_setting env ($"APOLLO_PER_REGION_TRAIN_PERIOD") 0 (cf_region_period c) /\
  int_setting env ($"APOLLO_TRACE_POLICY") 0 (cf_trace_policy c) /\
  int_setting env ($"APOLLO_STORE_MODELS") 0 (cf_store_models c) /\
  int_setting env ($"APOLLO_TRACE_RETRAIN") 0 (cf_trace_retrain c) /\
  int_setting env ($"APOLLO_TRACE_ALLGATHER") 0 (cf_trace_allgather c) /\
  int_setting env ($"APOLLO_TRACE_BEST_POLICIES") 0 (cf_trace_best c) /\
  int_setting env ($"APOLLO_RETRAIN_ENABLE") 0 (cf_retrain c) /\
  float_setting env ($"APOLLO_RETRAIN_TIME_THRESHOLD") (f32_of_Z 2) (cf_retrain_time c) /\
  float_setting env ($"APOLLO_RETRAIN_REGION_THRESHOLD") half32 (cf_retrain_region c) /\
  int_setting env ($"APOLLO_TRACE_CSV") 0 (cf_trace_csv c) /\
  int_setting env ($"APOLLO_PERSISTENT_DATASETS") 0 (cf_persistent c) /\
  int_setting env ($"APOLLO_STORE_EXEC_INFO") 0 (cf_exec_info c) /\
  text_setting env ($"APOLLO_OUTPUT_DIR") ($".apollo") (cf_output_dir c) /\
  text_setting env ($"APOLLO_DATASETS_DIR") ($"datasets") (cf_datasets_dir c) /\
  text_setting env ($"APOLLO_TRACES_DIR") ($"traces") (cf_traces_dir c) /\
  text_setting env ($"APOLLO_MODELS_DIR") ($"models") (cf_models_dir c).

(** Exactly one of two settings is on. *)
Definition one_of (a b : Z) : Prop := (a <> 0 /\ b = 0) \/ (a = 0 /\ b <> 0).

(** The combinations of settings the runtime accepts. *)
Definition consistent_settings (mpi : bool) (c : config) : Prop :=
  one_of (cf_collective c) (cf_local c) /\ one_of (cf_single_model c) (cf_region_model c) /\
  (cf_collective c <> 0 -> mpi = true).

(** The directories the settings call for could be made, and the trace file opened. *)
Definition directories_made (c : config) (mkdir : bytes -> bool) (open_trace : bool) : Prop :=
  mkdir (cf_output_dir c) = true /\
  (cf_persistent c <> 0 -> mkdir (cf_output_dir c ++ $"/" ++ cf_datasets_dir c)%list = true) /\
  (cf_trace_csv c <> 0 -> mkdir (cf_output_dir c ++ $"/" ++ cf_traces_dir c)%list = true /\ open_trace = true) /\
  (cf_store_models c <> 0 -> mkdir (cf_output_dir c ++ $"/" ++ cf_models_dir c)%list = true).
