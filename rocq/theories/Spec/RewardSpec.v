(** Vocabulary for what a policy network makes of times that its rewards do not tell apart. *)
From Coq Require Import List ZArith.
From Flocq Require Import Core BinarySingleNaN.
From Verif Require Import Model.Base Model.Float Model.DatasetM Model.NetM Model.PolicyNetM Spec.PolicyNetSpec.
Import ListNotations.

(** 746 or more: the exponential of its negative, less than 2^-1075, is nearest to 0. *)
Definition long (x : f64) : Prop := le64 (f64_of_Z 746) x = true.
Definition exp_vanishes (M : libm) : Prop := forall x, long x -> m_exp M (Bopp x) = B754_zero false.

(** Asking the same, or training on the same features and policies with times that are the same or both long. *)
Definition alike (u v : use f64) : Prop :=
  match u, v with
  | Ask draw f, Ask draw' f' => draw = draw' /\ f = f'
  | Learn a, Learn b => Forall2 (fun x y : list f32 * Z * f64 => fst x = fst y /\ (snd x = snd y \/ long (snd x) /\ long (snd y))) a b
  | _, _ => False
  end.

(** From 0 to 1. *)
Definition fraction (x : f64) : Prop := le64 zero64 x = true /\ le64 x one64 = true.

(** What is needed of the exponential and of powers of [beta]: NaN for NaN, and from 0 to 1. *)
Record decent_libm (M : libm) (beta : f64) : Prop := {
  dl_exp : m_exp M B754_nan = B754_nan;
  dl_pow : forall k, (0 < k)%Z -> fraction (m_pow M beta (f64_of_Z k))
}.
