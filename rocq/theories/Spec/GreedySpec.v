(** Trees grown by the best split at every node. *)
From Coq Require Import List ZArith Bool Permutation Reals.
From Flocq Require Import Core BinarySingleNaN.
From Verif Require Import Model.Base Model.Float Model.TreeM.
Import ListNotations.
Open Scope R_scope.

(** The share of a class among samples, and the Gini impurity: the chance that two samples drawn at random, with
    replacement, are of different classes. *)
Definition share (c : Z) (l : list sample) : R := INR (count_occ Z.eq_dec (map snd l) c) / INR (length l).
Definition sum_squares (cs : list Z) (l : list sample) : R := fold_right (fun c a => share c l * share c l + a) 0 cs.
Definition impurity (l : list sample) : R := 1 - sum_squares (nodup Z.eq_dec (map snd l)) l.

(** The impurity of a division in two, weighted by size. *)
Definition divided (ll lr : list sample) : R :=
  (INR (length ll) * impurity ll + INR (length lr) * impurity lr) / INR (length ll + length lr).

(** Some threshold on feature [f] has [ll] below and [lr] above it. *)
Definition apart (f : nat) (ll lr : list sample) : Prop :=
  forall x y, In x ll -> In y lr -> exists a b, nth_error (fst x) f = Some a /\ nth_error (fst y) f = Some b /\ lt32 a b = true.

(** [greedy eps d l t]: a tree over the samples [l] with at most [d] levels of splits. A node carries its impurity; it is
    a leaf only at the last level or if its impurity is at most [eps]; any other node has samples of two classes, no
    division of them by one threshold is better than the one taken by more than [eps], and its threshold is computed
    from the neighbouring values. *)
Inductive greedy (eps : R) : Z -> list sample -> tree -> Prop :=
| greedy_leaf d l g n c thr counts :
    Rabs (B2R g - impurity l) <= eps -> (d <= 0)%Z \/ impurity l <= eps ->
    greedy eps d l (Node g n c (-1) thr Null Null counts)
| greedy_inner d l ll lr g n c f thr lt rt counts x y a b :
    Rabs (B2R g - impurity l) <= eps -> (0 < d)%Z -> (exists s s', In s l /\ In s' l /\ snd s <> snd s') ->
    Permutation l (ll ++ lr) -> ll <> [] -> lr <> [] -> apart f ll lr ->
    (forall f' ll' lr', Permutation l (ll' ++ lr') -> ll' <> [] -> lr' <> [] -> apart f' ll' lr' -> divided ll lr <= divided ll' lr' + eps) ->
    In x ll -> In y lr -> nth_error (fst x) f = Some a -> nth_error (fst y) f = Some b ->
    (forall x' a', In x' ll -> nth_error (fst x') f = Some a' -> lt32 a a' = false) ->
    (forall y' b', In y' lr -> nth_error (fst y') f = Some b' -> lt32 b' b = false) -> thr = midpoint a b ->
    greedy eps (d - 1) ll lt -> greedy eps (d - 1) lr rt ->
    greedy eps d l (Node g n c (Z.of_nat f) thr lt rt counts).

(** How much binary32 arithmetic may lose with [k] classes: (4k + 26) / 2^24. *)
Definition slack (k : nat) : R := (4 * INR k + 26) / 16777216.
