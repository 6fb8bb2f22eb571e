(** Property C38: start-up of the runtime. *)
From Coq Require Import List ZArith Bool Ascii String Lia.
From Verif Require Import Model.Base Model.Float Model.Decimal Model.ConfigM Spec.StartupSpec Proofs.StartupFacts.
Import ListNotations.
Open Scope Z_scope.

Theorem C38_started_iff_consistent : forall mpi env mkdir open_trace c,
  apollo_instance mpi env mkdir open_trace = Ok c <->
  settings_from env c /\ consistent_settings mpi c /\ directories_made c mkdir open_trace.
Proof. exact startup_iff. Qed.
Print Assumptions C38_started_iff_consistent.

Theorem C38_otherwise_stops : forall mpi env mkdir open_trace,
  (exists c, apollo_instance mpi env mkdir open_trace = Ok c) \/ apollo_instance mpi env mkdir open_trace = Abort.
Proof. exact startup_or_stop. Qed.
Print Assumptions C38_otherwise_stops.

Example C38_nonvacuous : exists c,
  apollo_instance false example_env (fun d => bytes_eqb d ($"/tmp/a")) false = Ok c /\
  cf_global_period c = 100 /\ cf_local c = 2 /\ cf_output_dir c = $"/tmp/a" /\ cf_policy_model c = $"Static,policy=0".
Proof. exact startup_example. Qed.
