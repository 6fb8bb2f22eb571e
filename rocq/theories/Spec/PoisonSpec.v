(** Vocabulary for a policy network that was trained on a time that is not a number. *)
From Coq Require Import List ZArith.
From Flocq Require Import Core BinarySingleNaN.
From Verif Require Import Model.Base Model.Float Model.DatasetM Model.NetM Model.PolicyNetM Spec.PolicyNetSpec.
Import ListNotations.

(** Every answer is drawn with the weights [w], whatever the features asked for. *)
Fixpoint all_drawn_from (w : list f64) (us : list (use f64)) (answers : list Z) : Prop :=
  match us, answers with
  | [], [] => True
  | Ask draw _ :: us, i :: answers => draw w = Ok i /\ all_drawn_from w us answers
  | Learn _ :: us, _ => all_drawn_from w us answers
  | _, _ => False
  end.
