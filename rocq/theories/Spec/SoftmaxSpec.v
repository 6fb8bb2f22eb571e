(** Vocabulary for the rounded outputs of a policy network. *)
From Coq Require Import List ZArith Reals Bool.
From Flocq Require Import Core BinarySingleNaN.
From Verif Require Import Model.Base Model.Float Model.NetM Model.PolicyNetM.
Import ListNotations.
Local Open Scope R_scope.

(** What is asked of std::exp here: 1 at zero; for arguments up to zero (minus infinity included) a number between 0
    and 1, growing with the argument; not a number where the argument is none. *)
Record decent_exp (M : libm) : Prop := {
  de_zero : forall s, m_exp M (B754_zero s) = one64;
  de_below : forall x, le64 x zero64 = true -> is_finite (m_exp M x) = true /\ 0 <= B2R (m_exp M x) <= 1;
  de_grows : forall x y, le64 x y = true -> le64 y zero64 = true -> B2R (m_exp M x) <= B2R (m_exp M y);
  de_nan : m_exp M B754_nan = B754_nan
}.

(** Row [i] of an array with rows of [m]. *)
Definition row {X} (m i : nat) (l : list X) : list X := firstn m (skipn (i * m) l).

(** Outputs of the last layer that say something: numbers or minus infinity, and at least one number. *)
Definition usable (l : list f64) : Prop :=
  Forall (fun x => is_finite x = true \/ x = B754_infinity true) l /\ Exists (fun x => is_finite x = true) l.

(** Numbers from 0 to 1 whose sum is 1 but for rounding. *)
Definition nearly_distribution (l : list f64) : Prop :=
  Forall (fun p => is_finite p = true /\ 0 <= B2R p <= 1) l /\
  Rabs (fold_right Rplus 0 (map B2R l) - 1) <= INR (length l) * / 2 ^ 52.

(** In the same order. *)
Definition same_order (logits probs : list f64) : Prop :=
  forall j k x y p q, nth_error logits j = Some x -> nth_error logits k = Some y -> nth_error probs j = Some p -> nth_error probs k = Some q ->
    le64 x y = true -> B2R p <= B2R q.
