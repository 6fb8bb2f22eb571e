(** Property C70, the flush rate. *)
From Coq Require Import ZArith Bool Ascii String List.
From Verif Require Import Model.Base Model.ConfigM Model.KokkosM Spec.NumeralSpec Spec.FlushSpec Proofs.KokkosFlush Proofs.KokkosExamples.
Import ListNotations.
Open Scope Z_scope.

(** Of the arguments with --flush-rate= anywhere in them the last one counts, with the number after its first '='. *)
Theorem C70_flush_rate : forall args env flush env' flush', parse_args args env flush = Ok (env', flush') -> flush_rate args flush flush'.
Proof. exact parsed_rate. Qed.
Print Assumptions C70_flush_rate.

Example C70_flush_nonvacuous : (exists env, parse_args parsed_args (fun _ => None) 100 = Ok (env, 7)) /\
  (exists env, parse_args ($"x--flush-rate=-12s" :: removelast parsed_args ++ [$"--disable_retrain"; $"a=5--flush-rate=3"]) (fun _ => None) 100 = Ok (env, 5)).
Proof. split; [exact parsed_run|]. eexists. reflexivity. Qed.
