(** Two samples of a network with two policies, in whole numbers. *)
From Coq Require Import List Bool ZArith Lia.
From Verif Require Import Model.Base Model.NetM Model.LossGradM.
Import ListNotations.
Local Open Scope Z_scope.

Definition whole_arith : arith Z :=
  {| n_zero := 0; n_one := 1; n_eps := 1; n_nat := Z.of_nat; n_add := Z.add; n_sub := Z.sub; n_mul := Z.mul; n_div := Z.div; n_opp := Z.opp;
     n_exp := fun x => x; n_sqrt := fun x => x; n_pow := fun x _ => x; n_lt := Z.ltb; n_signbit := fun x => x <? 0 |}.
Definition two_probs : list Z := [1; 3; 5; 7].
Definition two_rewards : list Z := [20; 400].
Definition prob_at (i j : nat) : Z := nth (i * 2 + j) two_probs 0.
Definition reward_at (i : nat) : Z := nth i two_rewards 0.
Definition grad_of (action : list Z) : outcome (list Z) := loss_array whole_arith action two_probs two_rewards 2 2 [9; 9; 9; 9].

Lemma two_probs_at i j : (i < 2)%nat -> (j < 2)%nat -> nth_error two_probs (i * 2 + j) = Some (prob_at i j).
Proof. intros I J. destruct i as [|[|i]], j as [|[|j]]; try reflexivity; lia. Qed.
Lemma two_at {B} (l : list B) d i : List.length l = 2%nat -> (i < 2)%nat -> nth_error l i = Some (nth i l d).
Proof. intros L I. apply nth_error_nth'. rewrite L. exact I. Qed.
