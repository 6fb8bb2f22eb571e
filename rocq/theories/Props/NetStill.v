(** Property C126: what a policy network learns from equal and from different times. *)
From Coq Require Import List ZArith Reals Lra Lia.
From Flocq Require Import Core BinarySingleNaN.
From Verif Require Import Model.Base Model.Float Model.DatasetM Model.NetM Model.PolicyNetM Spec.NetSpec Spec.PolicyNetSpec Spec.NetStillSpec
  Proofs.PolicyNetProps Proofs.PolicyNetSafety Proofs.NetStill Proofs.NetStillExamples.
Import ListNotations.
Local Open Scope R_scope.

(** However often it is trained, and whatever it is asked in between, a network whose measured times are all equal
    keeps the weights and biases it was made with - so a first training on one measurement changes nothing. *)
Theorem C126_equal_times : forall policies features lr beta beta1 beta2 threshold init t us l Q,
  (0 < policies)%nat -> 0 <= beta < 1 -> List.Forall (use_ok policies features) us -> List.Forall (timed t) us -> (Z.of_nat (length us) <= int_max)%Z ->
  run_uses real_arith (fun x : f64 => B2R x) us (new_pnet real_arith policies features lr beta beta1 beta2 threshold init) = Ok (l, Q) ->
  same_parameters (pn_net Q) (pn_net (new_pnet real_arith policies features lr beta beta1 beta2 threshold init)).
Proof. exact equal_times_still. Qed.
Print Assumptions C126_equal_times.

Example C126_equal_nonvacuous : List.Forall (use_ok 2 1) (@some_uses R) /\ List.Forall (timed 1) (@some_uses R) /\
  exists l Q, run_uses real_arith (fun x : f64 => B2R x) some_uses (new_pnet real_arith 2 1 (/ 100) (/ 2) (/ 2) (9 / 10) 0 (fun _ _ => 1)) = Ok (l, Q).
Proof.
  split; [apply some_uses_ok|]. split; [exact some_uses_timed|]. apply within_arrays; [lia|apply some_uses_ok|cbn; unfold int_max; lia].
Qed.

(** The first training, on two policies measured with the same features, the first of them faster: in the output layer
    what speaks for the faster policy grows, what speaks for the slower one shrinks as much, and nothing of any other
    policy moves. *)
Theorem C126_two_times : forall policies features lr beta beta1 beta2 threshold init f a b (x y : f64) Q,
  features_ok features f -> (0 <= a < Z.of_nat policies)%Z -> (0 <= b < Z.of_nat policies)%Z -> a <> b ->
  0 <= lr -> 0 <= beta < 1 -> 0 <= beta1 < 1 -> 0 <= beta2 < 1 -> threshold <= 0 -> B2R x < B2R y ->
  pn_train real_arith (fun z : f64 => B2R z) (new_pnet real_arith policies features lr beta beta1 beta2 threshold init) [(f, a, x); (f, b, y)] = Ok Q ->
  favours (Nat.div (64 * features + policies) 2) lr (exp (- B2R x) - exp (- B2R y)) (Z.to_nat a) (Z.to_nat b)
    (layer3 (pn_net (new_pnet real_arith policies features lr beta beta1 beta2 threshold init))) (layer3 (pn_net Q)).
Proof. exact two_times. Qed.
Print Assumptions C126_two_times.

Example C126_two_nonvacuous : features_ok 1 [f32_of_Z 5] /\ B2R zero64 < B2R one64 /\
  exists Q, pn_train real_arith (fun z : f64 => B2R z) (new_pnet real_arith 3 1 (/ 100) (/ 2) (/ 2) (9 / 10) 0 (fun _ _ => 1))
    [([f32_of_Z 5], 2%Z, zero64); ([f32_of_Z 5], 0%Z, one64)] = Ok Q.
Proof. exact two_times_example. Qed.
