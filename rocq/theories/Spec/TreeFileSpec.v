(** What a decision tree file preserves. *)
From Coq Require Import List ZArith Sorting.Sorted.
From Flocq Require Import BinarySingleNaN.
From Verif Require Import Model.Base Model.Float Model.TreeM Spec.DecimalSpec Spec.DatasetFileSpec.
Import ListNotations.
Open Scope Z_scope.

(** Same shape, labels, feature indices and counts; floating-point numbers up to six digits. *)
Inductive tree_copy : tree -> tree -> Prop :=
| copy_null : tree_copy Null Null
| copy_node g g' n c f thr thr' l l' r r' counts :
    six_digit_copy g g' -> six_digit_copy thr thr' -> tree_copy l l' -> tree_copy r r' ->
    tree_copy (Node g n c f thr l r counts) (Node g' n c f thr' l' r' counts).

Definition sample_copy (s s' : sample) : Prop :=
  Forall2 six_digit_copy (fst s) (fst s') /\ snd s = snd s'.

Record dtree_copy (t t' : dtree) : Prop := {
  same_depth : t_max_depth t' = t_max_depth t;
  same_classes : t_classes t' = t_classes t;
  same_features : t_num_features t' = t_num_features t;
  same_tree : tree_copy (t_root t) (t_root t');
  same_data : Forall2 sample_copy (t_data t) (t_data t')
}.

(** The members of a node are in range of their C++ types, every node has a count for each of the [k] classes,
    and no floating-point member lies in the bottom of the range. *)
Fixpoint writable_tree (k : nat) (t : tree) : Prop :=
  match t with
  | Null => True
  | Node g n c f thr l r counts =>
      normal_range g /\ 0 <= n < 2 ^ 64 /\ is_int c /\ is_int f /\ normal_range thr /\
      length counts = k /\ Forall (fun x => 0 <= x < 2 ^ 64) counts /\
      writable_tree k l /\ writable_tree k r
  end.

Record writable (t : dtree) : Prop := {
  w_depth : 0 <= t_max_depth t < 2 ^ 32;
  w_features : 0 <= t_num_features t < 2 ^ 32;
  w_classes : StronglySorted Z.lt (t_classes t);
  w_ints : Forall is_int (t_classes t);
  w_root : t_root t <> Null;
  w_tree : writable_tree (length (t_classes t)) (t_root t);
  w_size : Z.of_nat (length (t_data t)) < 2 ^ 64;
  w_data : Forall (fun s => Forall normal_range (fst s) /\ is_int (snd s)) (t_data t)
}.

(** The thresholds of a tree. *)
Fixpoint thresholds (t : tree) : list f32 :=
  match t with
  | Null => []
  | Node _ _ _ _ thr l r _ => thr :: thresholds l ++ thresholds r
  end.

(** All floating-point members of a tree. *)
Fixpoint tree_floats (t : tree) : list f32 :=
  match t with
  | Null => []
  | Node g _ _ _ thr l r _ => g :: thr :: tree_floats l ++ tree_floats r
  end.
