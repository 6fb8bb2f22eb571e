(** Models that cannot be told apart. *)
From Coq Require Import ZArith Bool Ascii String List.
From Flocq Require Import BinarySingleNaN.
From Verif Require Import Model.Base Model.Float Model.PolicyModelsM Spec.PolicyModelsSpec.
Import ListNotations.
Open Scope Z_scope.

(** The answers to a sequence of calls. *)
Definition replies (P : platform) (m : model) (calls : list (draws * list f32)) : outcome (list Z) :=
  let* (cs, _) := ask P m calls in Ok cs.

(** Both are trained, are stored as the same file, and answer every sequence of calls alike. *)
Definition same_trained (P : platform) (m1 m2 : model) : Prop :=
  m_trainable m1 = false /\ m_trainable m2 = false /\ m_store m1 = m_store m2 /\ forall calls, replies P m1 calls = replies P m2 calls.

(** The same failure, or such models. *)
Definition same_outcome (P : platform) (x y : outcome model) : Prop :=
  match x, y with
  | Ok m1, Ok m2 => same_trained P m1 m2
  | Throw, Throw | Abort, Abort | UB, UB | Fuel, Fuel => True
  | _, _ => False
  end.
