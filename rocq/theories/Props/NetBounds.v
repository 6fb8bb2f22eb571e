(** Property C118: no training step of the policy network moves a parameter by more than a fixed number of learning rates. *)
From Coq Require Import List ZArith Bool Reals Lia Lra.
From Flocq Require Import Core BinarySingleNaN.
From Verif Require Import Model.Base Model.Float Model.DatasetM Model.NetM Model.PolicyNetM
  Spec.NetSpec Spec.PolicyNetSpec Proofs.NetStep Proofs.NetAdam Proofs.PolicyNetSafety Proofs.PolicyNetProps Proofs.NetBound.
Import ListNotations.
Local Open Scope nat_scope.
Local Open Scope list_scope.

(** Whatever the batches before and the batch of this step. *)
Theorem C118_step : forall N n h m bs Gs N1 s a r B N2, shaped N n h m -> untrained N -> 0 < m -> List.Forall (sample_batch_ok n m) bs -> sample_batch_ok n m (s, a, r, B) ->
  (0 <= learn_rate N)%R -> (0 <= net_beta1 N < 1)%R -> (0 < net_beta2 N < 1)%R -> (net_beta1 N * net_beta1 N < net_beta2 N)%R ->
  trajectory N bs = Ok (Gs, N1) -> train_step real_arith N1 s a r B = Ok N2 ->
  no_further n h m (learn_rate N * adam_reach (net_beta1 N) (net_beta2 N) (S (List.length bs)))%R (params_of N1) (params_of N2).
Proof. exact step_reach. Qed.
Print Assumptions C118_step.

(** With the default averages, less than 1.87 learning rates in every step. *)
Theorem C118_default : forall t, (adam_reach (/ 2) (9 / 10) (S t) <= 187 / 100)%R.
Proof. exact default_reach. Qed.
Print Assumptions C118_default.

(** A model made with the default averages, whatever it is asked and trained with. *)
Theorem C118_uses : forall metric_in policies features lr beta threshold init us l Q, 0 < policies -> List.Forall (use_ok policies features) us -> (Z.of_nat (List.length us) <= int_max)%Z -> (0 <= lr)%R ->
  run_uses real_arith metric_in us (new_pnet real_arith policies features lr beta (/ 2)%R (9 / 10)%R threshold init) = Ok (l, Q) ->
  no_further (64 * features) (Nat.div (64 * features + policies) 2) policies (INR (List.length (filter is_learn us)) * (lr * (187 / 100)))%R
    (params_of (pn_net (new_pnet real_arith policies features lr beta (/ 2)%R (9 / 10)%R threshold init))) (params_of (pn_net Q)).
Proof. exact uses_reach. Qed.
Print Assumptions C118_uses.

(** Three steps of a small network, and asking, training and asking again. *)
Example C118_nonvacuous :
  let N := new_net real_arith 1 1 2 (/ 100)%R (/ 2)%R (9 / 10)%R (fun _ _ => 1%R) in
  let bs := [([1%R; 2%R], [0; 1], [3%R; 4%R], 2); ([1%R], [1], [5%R], 1)] in
  shaped N 1 1 2 /\ untrained N /\ List.Forall (sample_batch_ok 1 2) bs /\ sample_batch_ok 1 2 ([2%R], [0], [(-1)%R], 1) /\ (net_beta1 N * net_beta1 N < net_beta2 N)%R /\
  (exists Gs N1 N2, trajectory N bs = Ok (Gs, N1) /\ train_step real_arith N1 [2%R] [0] [(-1)%R] 1 = Ok N2) /\
  List.Forall (use_ok 2 1) (@some_uses R) /\ List.length (filter is_learn (@some_uses R)) = 1 /\
  exists l Q, run_uses real_arith (fun x : f64 => B2R x) some_uses (new_pnet real_arith 2 1 (/ 100)%R (/ 2)%R (/ 2)%R (9 / 10)%R 0%R (fun _ _ => 1%R)) = Ok (l, Q).
Proof.
  cbv zeta. set (N := new_net real_arith 1 1 2 (/ 100)%R (/ 2)%R (9 / 10)%R (fun _ _ => 1%R)).
  assert (S : shaped N 1 1 2) by apply new_net_shaped.
  split; [exact S|]. split; [apply new_untrained|].
  match goal with |- ?B /\ _ => assert (H : B) by repeat constructor end. split; [exact H|].
  match goal with |- ?B /\ _ => assert (H2 : B) by repeat constructor end. split; [exact H2|].
  split; [cbn; lra|]. split.
  - destruct (trajectory_runs N 1 1 2 _ S ltac:(lia) H) as (Gs & N1 & E). exists Gs, N1.
    destruct (training_is_adam N 1 1 2 _ _ _ S (new_untrained _ _ _ _ _ _ _) ltac:(lia) H E) as (_ & S1 & _).
    destruct (train_step_shaped real_arith 0%R N1 1 1 2 1 [2%R] [0] [(-1)%R] S1 ltac:(lia) eq_refl eq_refl eq_refl) as (N2 & E2 & _); [intros [|i] I; cbn; lia|].
    exists N2. split; [exact E|exact E2].
  - split; [apply some_uses_ok|]. split; [reflexivity|]. apply within_arrays; [lia|apply some_uses_ok|cbn; unfold int_max; lia].
Qed.
