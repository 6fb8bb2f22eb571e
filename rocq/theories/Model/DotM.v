(** The scripts that draw stored trees and forests: src/python/analysis/rfc2dot_opencv.py, dtree2dot.py and rfc2dot.py.

    A picture is the list of the statements written; how the labels of nodes are put together from what is stored with them is
    left out: they are texts given with the nodes. *)
From Coq Require Import List ZArith Bool Ascii String.
From Verif Require Import Model.Base Model.Decimal.
Import ListNotations.

(** rfc2dot_opencv.py lines 48-50 and 60-61, dtree2dot.py lines 8-15 and 19: a node with its label, an edge. *)
Inductive statement := ANode (name label : bytes) | AnEdge (from to : bytes).

(** 'tree_%d_d_%d_n_%d', rfc2dot_opencv.py lines 48, 60, 61. *)
Definition tree_name (tid depth i : Z) : bytes := $"tree_" ++ print_Z tid ++ $"_d_" ++ print_Z depth ++ $"_n_" ++ print_Z i.

(** (j, d) = stack.pop(), and again while d >= depth, rfc2dot_opencv.py lines 56-58. The top of the stack is the head. An empty
    stack is an IndexError. *)
Fixpoint pop_until (depth : Z) (stack : list (Z * Z)) : outcome ((Z * Z) * list (Z * Z)) :=
  match stack with
  | [] => Throw
  | (j, d) :: rest => if (depth <=? d)%Z then pop_until depth rest else Ok ((j, d), rest)
  end.

(** The edges, rfc2dot_opencv.py lines 53-65: [i] is the number of the next node, [size] that of all. *)
Fixpoint edge_loop (tid size i : Z) (depths : list Z) (stack : list (Z * Z)) : outcome (list statement * list (Z * Z)) :=
  match depths with
  | [] => Ok ([], stack)
  | depth :: rest =>
      let* p := pop_until depth stack in
      let '((j, d), below) := p in
      let stack := (j, d) :: below in
      let stack := if (i <? size - 1)%Z then (i, depth) :: stack else stack in
      let* q := edge_loop tid size (i + 1) rest stack in
      let '(es, final) := q in
      Ok (AnEdge (tree_name tid d j) (tree_name tid depth i) :: es, final)
  end.

(** The nodes, rfc2dot_opencv.py lines 45-50. *)
Fixpoint node_loop (tid i : Z) (nodes : list (Z * bytes)) : list statement :=
  match nodes with [] => [] | (depth, label) :: rest => ANode (tree_name tid depth i) label :: node_loop tid (i + 1) rest end.

(** parse_tree, rfc2dot_opencv.py lines 40-70, of the depths and labels of the nodes stored; the assertion is that of line 68. *)
Definition parse_tree (tid : Z) (nodes : list (Z * bytes)) : outcome (list statement) :=
  let* q := edge_loop tid (Z.of_nat (List.length nodes)) 1 (map fst (tl nodes)) [(0, 0)%Z] in
  let '(es, final) := q in
  match final with
  | [] => Throw
  | (j, d) :: _ => if ((j =? 0) && (d =? 0))%Z then Ok (node_loop tid 0 nodes ++ es) else Throw
  end.

(** parse, rfc2dot_opencv.py lines 86-89. *)
Fixpoint parse_trees (r : Z) (trees : list (list (Z * bytes))) : outcome (list statement) :=
  match trees with
  | [] => Ok []
  | t :: rest =>
      let* a := parse_tree r t in
      let* b := parse_trees (r + 1) rest in
      Ok (a ++ [AnEdge ($"root") (tree_name r 0 0)] ++ b)
  end.
(** parse, rfc2dot_opencv.py lines 72-89. *)
Definition parse (label : bytes) (trees : list (list (Z * bytes))) : outcome (list statement) :=
  let* l := parse_trees 0 trees in Ok (ANode ($"root") label :: l).

(** A node as yaml.safe_load gives it: its label, made of the entries other than left and right, and these if there are any;
    dtree2dot.py lines 9-23. *)
Inductive ynode := YNode (label : bytes) (left right : option ynode).

(** parse_node, dtree2dot.py lines 7-25. *)
Fixpoint dot_node (node : ynode) (name : bytes) : list statement :=
  match node with
  | YNode label lo hi =>
      ANode name label ::
      match lo with Some l => dot_node l (name ++ $"_left") ++ [AnEdge name (name ++ $"_left")] | None => [] end ++
      match hi with Some r => dot_node r (name ++ $"_right") ++ [AnEdge name (name ++ $"_right")] | None => [] end
  end.

(** parse_tree, dtree2dot.py lines 28-43. *)
Definition dot_tree (tree : bytes * ynode) (name : bytes) : list statement :=
  ANode name (fst tree) :: dot_node (snd tree) (name ++ $"_root") ++ [AnEdge name (name ++ $"_root")].

(** The loop of parse_rfc, rfc2dot.py lines 20-22; a missing tree is an IndexError. *)
Fixpoint dot_trees (trees : list (bytes * ynode)) (i : Z) (n : nat) : outcome (list statement) :=
  match n with
  | O => Ok []
  | S n =>
      match trees with
      | [] => Throw
      | t :: rest =>
          let* l := dot_trees rest (i + 1) n in
          Ok (dot_tree t ($"tree_" ++ print_Z i) ++ [AnEdge ($"rfc") ($"tree_" ++ print_Z i)] ++ l)
      end
  end.
(** parse_rfc, rfc2dot.py lines 8-24. *)
Definition dot_rfc (label : bytes) (num_trees : nat) (trees : list (bytes * ynode)) : outcome (list statement) :=
  let* l := dot_trees trees 0 num_trees in Ok (ANode ($"rfc") label :: l).
