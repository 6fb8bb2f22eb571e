(** Property C129: what the inputs never show a policy network. *)
From Coq Require Import List ZArith Reals Lia Lra.
From Flocq Require Import Core BinarySingleNaN.
From Verif Require Import Model.Base Model.Float Model.DatasetM Model.NetM Model.PolicyNetM Spec.NetSpec Spec.PolicyNetSpec Spec.BlindSpec
  Proofs.PolicyNetProps Proofs.PolicyNetSafety Proofs.NetBlind Proofs.SoftmaxExamples Proofs.NetBlindExamples.
Import ListNotations.
Local Open Scope nat_scope.

(** A bit of a feature that is 0 in all data trained with keeps the weights it was given at random: when it is set for
    the first time, in a request, they decide. *)
Theorem C129_unseen_bits : forall policies features lr beta beta1 beta2 threshold init us l Q k b, 0 < policies ->
  List.Forall (use_ok policies features) us -> (Z.of_nat (length us) <= int_max)%Z -> k < features -> b < 64 -> List.Forall (never_set k b) us ->
  run_uses real_arith (fun x : f64 => B2R x) us (new_pnet real_arith policies features lr beta beta1 beta2 threshold init) = Ok (l, Q) ->
  forall j, j < (64 * features + policies) / 2 ->
    nth_error (l_w (layer1 (pn_net Q))) (j * (64 * features) + (64 * k + b)) = Some (init 1 (j * (64 * features) + (64 * k + b))).
Proof. exact unseen_bits. Qed.
Print Assumptions C129_unseen_bits.

Example C129_unseen_nonvacuous : List.Forall (use_ok 2 1) (@some_uses R) /\ List.Forall (never_set 0 1) (@some_uses R) /\ (exists d, In (Learn d) (@some_uses R) /\ d <> []) /\
  exists l Q, run_uses real_arith (fun x : f64 => B2R x) some_uses (new_pnet real_arith 2 1 (/ 100)%R (/ 2)%R (/ 2)%R (9 / 10)%R 0%R (fun _ _ => 1%R)) = Ok (l, Q).
Proof.
  split; [apply some_uses_ok|]. split; [exact second_bit_unset|]. split; [eexists; split; [right; left; reflexivity|discriminate]|].
  apply within_arrays; [lia|apply some_uses_ok|cbn; unfold int_max; lia].
Qed.

(** Before its first training a network with finite weights draws every policy with the same weight, the double
    nearest to 1/m, when all features are below one; for m policies whatever its weights. *)
Theorem C129_even_odds : forall M, m_exp M zero64 = one64 ->
  forall policies features lr beta beta1 beta2 threshold init us, 0 < policies -> (Z.of_nat policies <= 2 ^ 52)%Z ->
  (forall l i, is_finite (init l i) = true) -> lt64 zero64 threshold = false -> List.Forall (use_ok policies features) us -> only_asks us ->
  exists w, even_odds policies w /\ forall l Q,
    run_uses (f64_arith M) (fun x => x) us (new_pnet (f64_arith M) policies features lr beta beta1 beta2 threshold init) = Ok (l, Q) -> drawn_below_one w us l.
Proof. exact asks_even. Qed.
Print Assumptions C129_even_odds.

Example C129_even_nonvacuous : m_exp step_libm zero64 = one64 /\ List.Forall (use_ok 2 1) small_asks /\ only_asks small_asks /\ below_one [f32_of_Z 0] /\ exists l Q,
  run_uses (f64_arith step_libm) (fun x => x) small_asks (new_pnet (f64_arith step_libm) 2 1 one64 half64 half64 half64 zero64 (fun _ _ => one64)) = Ok (l, Q).
Proof.
  split; [exact (Spec.SoftmaxSpec.de_zero _ step_decent false)|]. split; [apply small_asks_ok|]. split; [apply small_asks_ok|]. split; [exact zero_below|]. exact small_asks_run.
Qed.
