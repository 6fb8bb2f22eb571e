(** The settings the benchmark is studied under. *)
From Coq Require Import ZArith Bool Ascii String List.
From Verif Require Import Model.Base Model.ConfigM Spec.SafeClient.
Import ListNotations.
Open Scope Z_scope.

(** As [plain], and neither automatic training, traces nor stored models, as when no environment variable is set. *)
Record bare (c : config) : Prop := {
  ba_plain : plain c;
  ba_global : cf_global_period c = 0;
  ba_period : cf_region_period c = 0;
  ba_trace_policy : cf_trace_policy c = 0;
  ba_trace_best : cf_trace_best c = 0;
  ba_trace_csv : cf_trace_csv c = 0;
  ba_store : cf_store_models c = 0
}.
