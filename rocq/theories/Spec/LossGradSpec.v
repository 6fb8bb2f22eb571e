(** The parts of the gradient of the softmax layer. *)
From Coq Require Import List ZArith.
From Verif Require Import Model.NetM.

Section Spec.
Context {T : Type} (A : arith T).
Variables (a : nat -> Z) (r : nat -> T) (p : nat -> nat -> T) (batch m : nat).

(** - reward_i * probability_ij / batch *)
Definition own_part (i j : nat) : T := n_div A (n_mul A (n_opp A (r i)) (p i j)) (n_nat A batch).
(** reward_i / batch *)
Definition share (i : nat) : T := n_div A (r i) (n_nat A batch).
(** The place in the array that the action of sample i stands for. *)
Definition target (i : nat) : Z := (Z.of_nat (i * m) + a i)%Z.
End Spec.
