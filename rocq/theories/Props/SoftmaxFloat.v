(** Property C127: the outputs of a policy network in binary64. *)
From Coq Require Import List ZArith Reals Lia.
From Flocq Require Import Core BinarySingleNaN.
From Verif Require Import Model.Base Model.Float Model.NetM Model.PolicyNetM Spec.NetSpec Spec.SoftmaxSpec Proofs.SoftmaxFloat Proofs.SoftmaxExamples.
Import ListNotations.
Local Open Scope R_scope.

(** If the last layer gives numbers or minus infinity, and a number at least once, the probabilities of a row are
    numbers from 0 to 1 with the sum 1 up to rounding, and a policy with a larger output is never less probable. *)
Theorem C127_distribution : forall M N n h m batch state p i, decent_exp M -> shaped N n h m -> (0 < m)%nat -> (Z.of_nat m <= 2 ^ 52)%Z ->
  length state = (batch * n)%nat -> forward_pass (f64_arith M) N state batch = Ok p -> (i < batch)%nat -> usable (row m i (out3 p)) ->
  length (row m i (aout3 p)) = m /\ nearly_distribution (row m i (aout3 p)) /\ same_order (row m i (out3 p)) (row m i (aout3 p)).
Proof. exact network_distribution. Qed.
Print Assumptions C127_distribution.

Example C127_distribution_nonvacuous : decent_exp step_libm /\ shaped (two_outputs zero64) 1 1 2 /\
  exists p, forward_pass (f64_arith step_libm) (two_outputs zero64) [one64] 1 = Ok p /\ usable (row 2 0 (out3 p)).
Proof. split; [exact step_decent|]. split; [apply two_outputs_shaped|]. exact usable_example. Qed.

(** In every other case - a NaN, plus infinity, or minus infinity throughout - no probability of the row is a number. *)
Theorem C127_otherwise_nan : forall M N n h m batch state p i, decent_exp M -> shaped N n h m -> (0 < m)%nat ->
  length state = (batch * n)%nat -> forward_pass (f64_arith M) N state batch = Ok p -> (i < batch)%nat -> ~ usable (row m i (out3 p)) ->
  length (row m i (aout3 p)) = m /\ Forall (fun q => q = B754_nan) (row m i (aout3 p)).
Proof. exact network_nothing. Qed.
Print Assumptions C127_otherwise_nan.

Example C127_otherwise_nonvacuous : shaped (two_outputs B754_nan) 1 1 2 /\
  exists p, forward_pass (f64_arith step_libm) (two_outputs B754_nan) [one64] 1 = Ok p /\ ~ usable (row 2 0 (out3 p)).
Proof. split; [apply two_outputs_shaped|]. exact unusable_example. Qed.
