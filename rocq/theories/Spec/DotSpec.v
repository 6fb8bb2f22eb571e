(** What a picture of trees should show. *)
From Coq Require Import List ZArith Bool Ascii String.
From Verif Require Import Model.Base Model.Decimal Model.DotM.
Import ListNotations.

Definition node_names (l : list statement) : list bytes := flat_map (fun s => match s with ANode n _ => [n] | AnEdge _ _ => [] end) l.
Definition labels (l : list statement) : list (bytes * bytes) := flat_map (fun s => match s with ANode n b => [(n, b)] | AnEdge _ _ => [] end) l.
Definition drawn_edges (l : list statement) : list (bytes * bytes) := flat_map (fun s => match s with ANode _ _ => [] | AnEdge a b => [(a, b)] end) l.

(** A tree of OpenCV: a node without or with two children. *)
Inductive shape := Tip (label : bytes) | Fork (label : bytes) (left right : shape).
(** OpenCV stores the nodes from the root, each before its left before its right part, with their depth. *)
Fixpoint stored (depth : Z) (t : shape) : list (Z * bytes) :=
  match t with Tip b => [(depth, b)] | Fork b l r => (depth, b) :: stored (depth + 1) l ++ stored (depth + 1) r end.
Fixpoint count (t : shape) : Z := match t with Tip _ => 1 | Fork _ l r => 1 + count l + count r end.

(** The subtrees of a tree, each with its depth and its place among the nodes stored. *)
Inductive part : Z -> Z -> shape -> Z -> Z -> shape -> Prop :=
  | part_here d i t : part d i t d i t
  | part_left d i b l r d' i' t' : part (d + 1) (i + 1) l d' i' t' -> part d i (Fork b l r) d' i' t'
  | part_right d i b l r d' i' t' : part (d + 1) (i + 1 + count l) r d' i' t' -> part d i (Fork b l r) d' i' t'.
Definition label_of (t : shape) : bytes := match t with Tip b => b | Fork b _ _ => b end.

(** The last node stored is the root or a child of the root. *)
Definition ends_at_root (t : shape) : bool := match t with Tip _ => true | Fork _ _ (Tip _) => true | _ => false end.

(** Places in a tree of Apollo: the way from the root. *)
Inductive side := ToLeft | ToRight.
Fixpoint place (t : ynode) (way : list side) : option ynode :=
  match way, t with
  | [], _ => Some t
  | ToLeft :: w, YNode _ (Some l) _ => place l w
  | ToRight :: w, YNode _ _ (Some r) => place r w
  | _, _ => None
  end.
Definition ylabel (t : ynode) : bytes := match t with YNode b _ _ => b end.
Definition side_name (s : side) : bytes := match s with ToLeft => $"_left" | ToRight => $"_right" end.
Definition way_name (base : bytes) (way : list side) : bytes := base ++ List.concat (map side_name way).
