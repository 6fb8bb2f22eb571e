(** Feature vectors that do not fit the first one. *)
From Coq Require Import List ZArith.
From Flocq Require Import BinarySingleNaN.
From Verif Require Import Model.Base Model.Float.

(** The vector has no number at the position: it ends before it, or has a NaN there. *)
Definition no_number (i : nat) (g : list f32) : Prop := forall x, nth_error g i = Some x -> is_nan x = true.

(** Some vector has no number at a position the first vector has, or, the first vector being empty, at the first. *)
Definition misfit (features : list (list f32)) : Prop :=
  exists f rest g i, features = f :: rest /\ In g features /\ (i < Nat.max 1 (length f))%nat /\ no_number i g.
