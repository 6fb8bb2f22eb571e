(** Property C128: one time that is not a number spoils a policy network for good. *)
From Coq Require Import List ZArith Reals Lia.
From Flocq Require Import Core BinarySingleNaN.
From Verif Require Import Model.Base Model.Float Model.DatasetM Model.NetM Model.PolicyNetM Spec.NetSpec Spec.PolicyNetSpec Spec.PoisonSpec
  Proofs.PolicyNetProps Proofs.PolicyNetSafety Proofs.NetPoison Proofs.SoftmaxExamples.
Import ListNotations.

(** Whatever a new network is used for first, once it is trained on data with a NaN among the times, all biases of its
    outputs and the average of its rewards are NaN, and stay so whatever it is trained on afterwards; every policy it
    answers from then on is drawn with weights that are all NaN, whatever the features. *)
Theorem C128_poisoned : forall M, m_exp M B754_nan = B754_nan ->
  forall policies features lr beta beta1 beta2 threshold init us1 d us2 l1 l2 P Q Q', (0 < policies)%nat ->
  List.Forall (use_ok policies features) (us1 ++ Learn d :: us2) -> (Z.of_nat (length (us1 ++ Learn (T := f64) d :: us2)) <= int_max)%Z ->
  (exists e, In e d /\ snd e = B754_nan) ->
  run_uses (f64_arith M) (fun x => x) us1 (new_pnet (f64_arith M) policies features lr beta beta1 beta2 threshold init) = Ok (l1, P) ->
  pn_train (f64_arith M) (fun x => x) P d = Ok Q -> run_uses (f64_arith M) (fun x => x) us2 Q = Ok (l2, Q') ->
  all_drawn_from (repeat B754_nan policies) us2 l2 /\ l_b (layer3 (pn_net Q')) = repeat B754_nan policies /\ pn_avg Q' = B754_nan.
Proof. exact poisoned. Qed.
Print Assumptions C128_poisoned.

Example C128_nonvacuous : m_exp step_libm B754_nan = B754_nan /\ List.Forall (use_ok 2 1) (@some_uses f64 ++ Learn not_timed :: some_uses)%list /\
  (exists e, In e not_timed /\ snd e = B754_nan) /\
  exists l1 P Q l2 Q',
  run_uses (f64_arith step_libm) (fun x => x) some_uses (new_pnet (f64_arith step_libm) 2 1 one64 half64 half64 half64 zero64 (fun _ _ => one64)) = Ok (l1, P) /\
  pn_train (f64_arith step_libm) (fun x => x) P not_timed = Ok Q /\ run_uses (f64_arith step_libm) (fun x => x) some_uses Q = Ok (l2, Q').
Proof.
  split; [reflexivity|]. split; [exact not_timed_ok|]. split; [exists ([f32_of_Z 5], 1%Z, B754_nan); cbn; auto|]. exact poison_example.
Qed.
