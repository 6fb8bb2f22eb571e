(** Vocabulary for what the inputs of a policy network never show it. *)
From Coq Require Import List ZArith Reals.
From Flocq Require Import Core BinarySingleNaN.
From Verif Require Import Model.Base Model.Float Model.DatasetM Model.NetM Model.PolicyNetM Spec.PolicyNetSpec.
Import ListNotations.

(** Bit [b] of the integer part of feature [k] is 0 in all data trained with. *)
Definition never_set {T} (k b : nat) (u : use T) : Prop :=
  match u with
  | Ask _ _ => True
  | Learn d => Forall (fun e => forall x, nth_error (fst (fst e)) k = Some x -> Z.testbit (Ztrunc (B2R x)) (Z.of_nat b) = false) d
  end.

(** All features are between -1 and 1, so that their integer parts are 0. *)
Definition below_one (f : list f32) : Prop := Forall (fun x => (Rabs (B2R x) < 1)%R) f.

Definition only_asks {T} (us : list (use T)) : Prop := Forall (fun u => match u with Ask _ _ => True | Learn _ => False end) us.

(** The answers to requests with features below one are drawn with the weights [w]. *)
Fixpoint drawn_below_one (w : list f64) (us : list (use f64)) (answers : list Z) : Prop :=
  match us, answers with
  | [], [] => True
  | Ask draw f :: us, i :: answers => (below_one f -> draw w = Ok i) /\ drawn_below_one w us answers
  | _, _ => False
  end.

(** [m] times the double nearest to 1/m. *)
Definition even_odds (m : nat) (w : list f64) : Prop :=
  exists q, w = repeat q m /\ is_finite q = true /\ B2R q = round radix2 (FLT_exp (-1074) 53) ZnearestE (1 / INR m).
