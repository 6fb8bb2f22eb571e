(** The way a tree takes when it is asked about a vector of features. *)
From Coq Require Import List ZArith.
From Verif Require Import Model.Base Model.Float Model.TreeM.
Import ListNotations.
Open Scope Z_scope.

(** The node [u] is on the way of [x] through [t]: from a node that names a feature of [x] the way goes on to the left child if
    that feature is below the threshold of the node, and to the right one otherwise. *)
Inductive route (x : list f32) : tree -> tree -> Prop :=
| route_here g n c f thr l r cs : route x (Node g n c f thr l r cs) (Node g n c f thr l r cs)
| route_left g n c f thr l r cs v u : 0 <= f -> nth_error x (Z.to_nat f) = Some v -> lt32 v thr = true -> route x l u ->
    route x (Node g n c f thr l r cs) u
| route_right g n c f thr l r cs v u : 0 <= f -> nth_error x (Z.to_nat f) = Some v -> lt32 v thr = false -> route x r u ->
    route x (Node g n c f thr l r cs) u.

(** The node names a feature that the vector does not have. *)
Definition beyond (x : list f32) (u : tree) : Prop :=
  match u with Node _ _ _ f _ _ _ _ => f <> -1 /\ ~ (0 <= f < Z.of_nat (length x)) | Null => False end.

(** The way ends at the node, which has class [k]: it names no feature, or it has no child on the side to go to. *)
Definition ends (x : list f32) (u : tree) (k : Z) : Prop :=
  match u with
  | Node _ _ c f thr l r _ => c = k /\
      (f = -1 \/ exists v, 0 <= f /\ nth_error x (Z.to_nat f) = Some v /\ (if lt32 v thr then l else r) = Null)
  | Null => False
  end.
