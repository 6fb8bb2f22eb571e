(** Times that are neither tiny nor huge, and the sum of two times as a double. *)
From Coq Require Import ZArith Reals.
From Flocq Require Import Core BinarySingleNaN.
From Verif Require Import Model.Base Model.Float Spec.AnalyzeSpec.
Local Open Scope R_scope.

Definition ordinary (x : f64) : Prop := is_finite x = true /\ bpow radix2 (-500) <= B2R x <= bpow radix2 500.
(** The times before and after training: neither negative, and together neither tiny nor huge. *)
Definition ordinary_pair (t : f64 * f64) : Prop :=
  is_finite (fst t) = true /\ is_finite (snd t) = true /\ 0 <= B2R (fst t) /\ 0 <= B2R (snd t) /\
  bpow radix2 (-500) <= B2R (fst t) + B2R (snd t) <= bpow radix2 500.
(** The double nearest to the sum of both times. *)
Definition overall (t : f64 * f64) : R := round radix2 (FLT_exp (-1074) 53) ZnearestE (B2R (fst t) + B2R (snd t)).

(** No run measured an execution on the rank. *)
Definition idle (ss : list static_trace) (rank : Z) : Prop := forall j region idx, ~ measured_in ss rank j region idx.
