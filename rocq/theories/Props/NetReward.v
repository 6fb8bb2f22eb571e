(** Property C131: metrics a policy network cannot tell apart, and metrics that spoil it. *)
From Coq Require Import List ZArith Reals Lia.
From Flocq Require Import Core BinarySingleNaN.
From Verif Require Import Model.Base Model.Float Model.DatasetM Model.NetM Model.PolicyNetM Spec.NetSpec Spec.PolicyNetSpec Spec.PoisonSpec Spec.RewardSpec
  Proofs.PolicyNetProps Proofs.PolicyNetSafety Proofs.PolicyNetStale Proofs.NetReward Proofs.NetRewardExamples.
Import ListNotations.

(** C131: two histories that differ only in times of 746 or more give the same answers and leave the same network, bit for bit. *)
Theorem C131_long : forall M, exp_vanishes M -> forall us vs, Forall2 alike us vs -> forall P,
  run_uses (f64_arith M) (fun x => x) us P = run_uses (f64_arith M) (fun x => x) vs P.
Proof. exact uses_alike. Qed.
Print Assumptions C131_long.

Example C131_long_nonvacuous : exp_vanishes coarse_libm /\ Forall2 alike (Learn first_faster :: some_uses) (Learn second_faster :: some_uses) /\ first_faster <> second_faster.
Proof.
  split; [exact coarse_vanishes|]. split; [exact faster_alike|]. exact faster_differ.
Qed.

(** C131: a metric so far below zero that its reward is infinite has the effect of a NaN (C128): whatever a new network was used
    for before and is trained on afterwards, the biases of its outputs are NaN and every answer is drawn with weights that are
    all NaN. *)
Theorem C131_overflow : forall M beta, decent_libm M beta -> fraction beta ->
  forall policies features lr beta1 beta2 threshold init us1 d us2 l1 l2 P Q Q', (0 < policies)%nat ->
  List.Forall (use_ok policies features) (us1 ++ Learn d :: us2) -> (Z.of_nat (length (us1 ++ Learn (T := f64) d :: us2)) <= int_max)%Z ->
  (exists e, In e d /\ m_exp M (Bopp (snd e)) = B754_infinity false) ->
  run_uses (f64_arith M) (fun x => x) us1 (new_pnet (f64_arith M) policies features lr beta beta1 beta2 threshold init) = Ok (l1, P) ->
  pn_train (f64_arith M) (fun x => x) P d = Ok Q -> run_uses (f64_arith M) (fun x => x) us2 Q = Ok (l2, Q') ->
  all_drawn_from (repeat B754_nan policies) us2 l2 /\ l_b (layer3 (pn_net Q')) = repeat B754_nan policies.
Proof. exact overflown. Qed.
Print Assumptions C131_overflow.

Example C131_overflow_nonvacuous : decent_libm coarse_libm half64 /\ fraction half64 /\ List.Forall (use_ok 2 1) (@some_uses f64 ++ Learn far_below :: some_uses)%list /\
  (exists e, In e far_below /\ m_exp coarse_libm (Bopp (snd e)) = B754_infinity false) /\
  exists l1 P Q l2 Q',
  run_uses (f64_arith coarse_libm) (fun x => x) some_uses (new_pnet (f64_arith coarse_libm) 2 1 one64 half64 half64 half64 zero64 (fun _ _ => one64)) = Ok (l1, P) /\
  pn_train (f64_arith coarse_libm) (fun x => x) P far_below = Ok Q /\ run_uses (f64_arith coarse_libm) (fun x => x) some_uses Q = Ok (l2, Q').
Proof.
  split; [exact (coarse_decent half64)|]. split; [exact half_fraction|]. split; [exact far_below_ok|]. split; [exact far_below_infinite|exact overflow_example].
Qed.
