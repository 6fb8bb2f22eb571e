(** Counting policies. *)
From Coq Require Import List ZArith.
Import ListNotations.

(** How often a policy is in a list. *)
Definition times_used (ps : list Z) (p : Z) : nat := count_occ Z.eq_dec ps p.
(** One number for each of the policies below [n], in their order, that says how often the policy was used. *)
Definition tally (n : nat) (ps : list Z) (h : list (Z * nat)) : Prop :=
  List.length h = n /\ forall i p c, nth_error h i = Some (p, c) -> p = Z.of_nat i /\ c = times_used ps p.
