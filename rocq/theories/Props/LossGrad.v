(** C141: policies outside the range in the training of the policy network. *)
From Coq Require Import List Bool ZArith.
From Verif Require Import Model.Base Model.NetM Model.LossGradM Spec.LossGradSpec Proofs.LossGradFacts Proofs.LossGradExamples.
Import ListNotations.

(** All policies in range: the array holds the gradient of C43. *)
Theorem C141_inside : forall T (A : arith T) action probs reward batch m a p r,
  (forall i, i < batch -> nth_error action i = Some (a i)) -> (forall i j, i < batch -> j < m -> nth_error probs (i * m + j) = Some (p i j)) ->
  (forall i, i < batch -> nth_error reward i = Some (r i)) ->
  forall g, batch * m <= List.length g -> (forall i, i < batch -> (0 <= a i < Z.of_nat m)%Z) ->
  exists g', loss_array A action probs reward batch m g = Ok g' /\ loss_grad A (map Z.to_nat action) probs reward batch m = Ok (firstn (batch * m) g').
Proof. intros T A action probs reward batch m a p r Ha Hp Hr g L. exact (gradient_inside A action probs reward batch m a p r Ha Hp Hr _ L g eq_refl). Qed.
Example C141_inside_example : grad_of [1; 0]%Z = Ok [-10; -30 + 10; -1000 + 200; -1400]%Z.
Proof. reflexivity. Qed.
Print Assumptions C141_inside.

(** A policy outside the range whose place is outside the array: undefined. *)
Theorem C141_outside : forall T (A : arith T) action probs reward batch m a p r,
  (forall i, i < batch -> nth_error action i = Some (a i)) -> (forall i j, i < batch -> j < m -> nth_error probs (i * m + j) = Some (p i j)) ->
  (forall i, i < batch -> nth_error reward i = Some (r i)) ->
  forall g, batch * m <= List.length g -> (exists i, i < batch /\ ~ (0 <= target a m i < Z.of_nat (List.length g))%Z) ->
  loss_array A action probs reward batch m g = UB.
Proof. intros T A action probs reward batch m a p r Ha Hp Hr g L (i & I & K). exact (outside_is_undefined A action probs reward batch m a p r Ha Hp Hr _ L g i eq_refl I K). Qed.
Example C141_outside_example : grad_of [1; 2]%Z = UB /\ grad_of [-1; 0]%Z = UB.
Proof. split; reflexivity. Qed.
Print Assumptions C141_outside.

(** A policy above the range within the array: the sample's reward is not credited to any policy, all of which it counts against. *)
Theorem C141_above : forall T (A : arith T) action probs reward batch m a p r,
  (forall i, i < batch -> nth_error action i = Some (a i)) -> (forall i j, i < batch -> j < m -> nth_error probs (i * m + j) = Some (p i j)) ->
  (forall i, i < batch -> nth_error reward i = Some (r i)) ->
  forall g s, batch * m <= List.length g -> s < batch -> (Z.of_nat m <= a s)%Z -> (target a m s < Z.of_nat (List.length g))%Z ->
  (forall i, i < batch -> i <> s -> (0 <= a i < Z.of_nat m)%Z) ->
  exists g', loss_array A action probs reward batch m g = Ok g' /\ forall i j, i < batch -> j < m -> nth_error g' (i * m + j) =
    Some (if Nat.eqb i s then own_part A r p batch i j else if (a i =? Z.of_nat j)%Z then n_add A (own_part A r p batch i j) (share A r batch i) else own_part A r p batch i j).
Proof. intros T A action probs reward batch m a p r Ha Hp Hr g s L. exact (gradient_above A action probs reward batch m a p r Ha Hp Hr _ L g s eq_refl). Qed.
Example C141_above_example : grad_of [2; 0]%Z = Ok [-10; -30; -1000 + 200; -1400]%Z.
Proof. reflexivity. Qed.
Print Assumptions C141_above.

(** A negative policy within the array: the reward is credited to another sample's policy. *)
Theorem C141_below : forall T (A : arith T) action probs reward batch m a p r,
  (forall i, i < batch -> nth_error action i = Some (a i)) -> (forall i j, i < batch -> j < m -> nth_error probs (i * m + j) = Some (p i j)) ->
  (forall i, i < batch -> nth_error reward i = Some (r i)) ->
  forall g s, batch * m <= List.length g -> s < batch -> (a s < 0)%Z -> (0 <= target a m s)%Z -> (forall i, i < batch -> i <> s -> (0 <= a i < Z.of_nat m)%Z) ->
  exists g', loss_array A action probs reward batch m g = Ok g' /\ forall i j, i < batch -> j < m -> nth_error g' (i * m + j) =
    Some (let x := if Nat.eqb i s then own_part A r p batch i j else if (a i =? Z.of_nat j)%Z then n_add A (own_part A r p batch i j) (share A r batch i) else own_part A r p batch i j in
      if (target a m s =? Z.of_nat (i * m + j))%Z then n_add A x (share A r batch s) else x).
Proof. intros T A action probs reward batch m a p r Ha Hp Hr g s L. exact (gradient_below A action probs reward batch m a p r Ha Hp Hr _ L g s eq_refl). Qed.
Example C141_below_example : grad_of [1; -1]%Z = Ok [-10; -30 + 10 + 200; -1000; -1400]%Z /\
  (forall i, i < 2 -> nth_error [1; -1]%Z i = Some (nth i [1; -1]%Z 0%Z)) /\ (forall i j, i < 2 -> j < 2 -> nth_error two_probs (i * 2 + j) = Some (prob_at i j)).
Proof. split; [reflexivity|]. split; [intros i I; apply two_at; [reflexivity|exact I]|exact two_probs_at]. Qed.
Print Assumptions C141_below.
