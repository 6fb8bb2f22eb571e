From Coq Require Import List ZArith Bool Ascii String Lia Permutation.
From Flocq Require Import BinarySingleNaN.
From Verif Require Import Model.Base Model.Float Model.Decimal Model.WriteOptM Spec.WriteOptSpec.
From Coq Require Import List.
Import ListNotations.
Open Scope Z_scope.

(** Two executions of a region with each of two policies, and one on another rank. *)
Definition opt_of (rank idx p t : Z) : opt_row := mkOpt rank ($"r") idx p (f64_of_Z t).
Definition four_rows : list opt_row := [opt_of 0 0 0 5; opt_of 0 1 0 3; opt_of 1 0 0 1; opt_of 0 0 1 2; opt_of 0 1 1 7].
Definition four_sorted : list opt_row := [opt_of 0 0 1 2; opt_of 0 1 0 3; opt_of 0 0 0 5; opt_of 0 1 1 7].
Lemma four_arranged : arranged four_rows 0 four_sorted.
Proof.
  split; [|reflexivity]. change (of_rank 0 four_rows) with [opt_of 0 0 0 5; opt_of 0 1 0 3; opt_of 0 0 1 2; opt_of 0 1 1 7]. unfold four_sorted.
  generalize (opt_of 0 0 0 5) (opt_of 0 1 0 3) (opt_of 0 0 1 2) (opt_of 0 1 1 7). intros a b c d.
  apply Permutation_trans with ([a] ++ [b; c] ++ [d]); [reflexivity|]. apply Permutation_trans with ([c; b] ++ [a] ++ [d]); [|reflexivity].
  rewrite !app_assoc. apply Permutation_app_tail. etransitivity; [apply Permutation_app_comm|]. apply Permutation_app_tail. apply perm_swap.
Qed.
Lemma four_numbers r : In r four_rows -> is_nan (o_time r) = false.
Proof. intros I. repeat (destruct I as [<-|I]; [reflexivity|]). contradiction. Qed.
Lemma four_policies r : In r four_rows -> -2147483648 <= o_policy r <= 2147483647.
Proof. intros I. repeat (destruct I as [<-|I]; [cbn; lia|]). contradiction. Qed.
Lemma four_indices i : (exists r, measured_for four_rows 0 ($"r") i r) <-> 0 <= i < Z.of_nat 2.
Proof.
  split.
  - intros (r & I & K & _ & <-). repeat (destruct I as [<-|I]; [first [discriminate K|cbn; lia]|]). contradiction.
  - intros R. assert (C : i = 0 \/ i = 1) by lia. destruct C as [->| ->].
    + exists (opt_of 0 0 0 5). repeat split. left. reflexivity.
    + exists (opt_of 0 1 0 3). repeat split. right. left. reflexivity.
Qed.
