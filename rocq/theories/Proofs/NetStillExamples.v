(** Cases for the statements of [Props/NetStill.v]. *)
From Coq Require Import List ZArith Reals Lra Lia.
From Flocq Require Import Core BinarySingleNaN.
From Verif Require Import Model.Base Model.Float Model.DatasetM Model.NetM Model.PolicyNetM Spec.NetSpec Spec.PolicyNetSpec Spec.NetStillSpec
  Proofs.PolicyNetStale Proofs.PolicyNetProps Proofs.PolicyNetSafety Proofs.NetStill.
Import ListNotations.
Local Open Scope R_scope.

Lemma some_uses_timed : List.Forall (timed 1) (@some_uses R).
Proof. repeat constructor. cbn [snd]. apply one_value. Qed.

Definition two_measured : dataset := [([f32_of_Z 5], 2%Z, zero64); ([f32_of_Z 5], 0%Z, one64)].

Lemma two_times_example : features_ok 1 [f32_of_Z 5] /\ B2R zero64 < B2R one64 /\
  exists Q, pn_train real_arith (fun z : f64 => B2R z) (new_pnet real_arith 3 1 (/ 100) (/ 2) (/ 2) (9 / 10) 0 (fun _ _ => 1)) two_measured = Ok Q.
Proof.
  assert (F : features_ok 1 [f32_of_Z 5]) by (split; [reflexivity|constructor; [apply five_encodable|constructor]]).
  split; [exact F|]. split; [rewrite (proj1 one_value); cbn; lra|].
  destruct (within_arrays real_arith (fun z : f64 => B2R z) 3 1 (/ 100) (/ 2) (/ 2) (9 / 10) 0 (fun _ _ => 1) [Learn two_measured]) as (l & Q & E).
  - lia.
  - constructor; [|constructor]. repeat constructor; cbn; try apply five_encodable; lia.
  - cbn. unfold int_max. lia.
  - cbn [run_uses] in E. destruct (pn_train _ _ _ two_measured) as [Q'| | | |]; cbn [bind] in E; try discriminate E. exists Q'. reflexivity.
Qed.
