(** What a trained decision tree must satisfy. *)
From Coq Require Import List ZArith Bool Sorted Permutation Reals.
From Flocq Require Import Core BinarySingleNaN.
From Verif Require Import Model.Base Model.Float Model.TreeM Spec.DatasetSpec.
Import ListNotations.
Open Scope Z_scope.

(** Strict weak order on the elements of a list. *)
Definition strict_weak_on {A} (cmp : A -> A -> bool) (l : list A) : Prop :=
  (forall x, In x l -> cmp x x = false) /\
  (forall x y z, In x l -> In y l -> In z l -> cmp x y = true -> cmp y z = true -> cmp x z = true) /\
  (forall x y z, In x l -> In y l -> In z l -> cmp x y = true -> cmp x z = true \/ cmp z y = true).

(** What the C++ standard says of std::sort: for a strict weak order the result is a sorted permutation;
    the order of equivalent elements is unspecified. *)
Definition sorter_ok (srt : sorter) : Prop :=
  forall cmp l, strict_weak_on cmp l ->
    Permutation l (srt cmp l) /\ StronglySorted (fun x y => cmp y x = false) (srt cmp l).

(** Training sets produced by Dataset::findMinMetricPolicyByFeatures: equal-length NaN-free vectors. *)
Definition uniform_samples (k : nat) (l : list sample) : Prop :=
  Forall (fun s => length (fst s) = k /\ Forall (fun x => is_nan x = false) (fst s)) l.

(** Equal vectors carry equal classes. *)
Definition consistent (l : list sample) : Prop :=
  forall s s', In s l -> In s' l -> same_features (fst s) (fst s') = true -> snd s = snd s'.

(** Longest path to a leaf, counted in edges. *)
Fixpoint tree_depth (t : tree) : Z :=
  match t with
  | Node _ _ _ _ _ Null Null _ => 0
  | Node _ _ _ _ _ l r _ => 1 + Z.max (tree_depth l) (tree_depth r)
  | Null => -1
  end.

(** Class counts by definition. *)
Definition counts_of (classes : list Z) (l : list sample) (counts : list Z) : Prop :=
  Forall2 (fun c n => n = Z.of_nat (count_occ Z.eq_dec (map snd l) c)) classes counts.

(** [partition_tree classes l t]: [t] is a tree over the samples [l]. A leaf has no feature; an inner
    node splits its samples in two non-empty parts, every sample of the left part having a strictly
    smaller split feature than every sample of the right part. *)
Inductive partition_tree (classes : list Z) : list sample -> tree -> Prop :=
| part_leaf l g n c thr counts :
    n = Z.of_nat (length l) -> counts_of classes l counts ->
    partition_tree classes l (Node g n c (-1) thr Null Null counts)
| part_inner l ll lr g n c f thr lt rt counts :
    n = Z.of_nat (length l) -> counts_of classes l counts ->
    Permutation l (ll ++ lr) -> ll <> [] -> lr <> [] ->
    (forall x y, In x ll -> In y lr ->
       exists a b, nth_error (fst x) f = Some a /\ nth_error (fst y) f = Some b /\ lt32 a b = true) ->
    partition_tree classes ll lt -> partition_tree classes lr rt ->
    partition_tree classes l (Node g n c (Z.of_nat f) thr lt rt counts).

(** Every label of the tree. *)
Fixpoint labels (t : tree) : list Z :=
  match t with
  | Null => []
  | Node _ _ c _ _ l r _ => c :: labels l ++ labels r
  end.

(** Trees obtained from the constructor by successive calls of train, with the calls made. *)
Inductive trained (srt : sorter) (max_depth : Z) : list (list (list f32) * list Z) -> dtree -> Prop :=
| trained_new : trained srt max_depth [] (new_dtree max_depth)
| trained_more h t fs rs t' :
    trained srt max_depth h t -> dt_train srt t fs rs = Ok t' ->
    trained srt max_depth (h ++ [(fs, rs)]) t'.

Definition is_minimum (v : Z) (l : list Z) : Prop := In v l /\ forall c, In c l -> v <= c.
