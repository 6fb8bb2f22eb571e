(** What a random forest must satisfy. *)
From Coq Require Import List ZArith Permutation.
From Verif Require Import Model.Base Model.Float Model.TreeM Model.ForestM Spec.DecimalSpec Spec.TreeFileSpec.
Import ListNotations.
Open Scope Z_scope.

(** [votes_for x f vs]: the trees of [f] vote [vs] on the features [x]. *)
Definition votes_for (x : list f32) (f : forest) (vs : list Z) : Prop :=
  Forall2 (fun t v => dt_predict t x = Ok v) (f_trees f) vs.

(** The smallest of the classes 0 .. k-1 with the most votes. *)
Definition plurality (k : Z) (vs : list Z) (c : Z) : Prop :=
  0 <= c < k /\
  (forall d, 0 <= d < k -> (count_occ Z.eq_dec vs d <= count_occ Z.eq_dec vs c)%nat) /\
  (forall d, 0 <= d < c -> (count_occ Z.eq_dec vs d < count_occ Z.eq_dec vs c)%nat).

(** Draws stay inside the sample range, as std::uniform_int_distribution guarantees. *)
Definition picker_ok (pick : picker) : Prop := forall n k, (0 < n)%nat -> (pick n k < n)%nat.

(** The responses drawn for tree [j]: as many draws as there are responses, each tree going on where the one before stopped. *)
Definition drawn (pick : picker) (responses : list Z) (j : nat) : list Z :=
  let n := length responses in map (fun i => nth (pick n (j * n + i)%nat) responses 0) (seq 0 n).

Record writable_forest (f : forest) : Prop := {
  wf_classes : 0 <= f_num_classes f < 2 ^ 31;
  wf_trees : 0 <= f_num_trees f < 2 ^ 32;
  wf_depth : 0 <= f_max_depth f < 2 ^ 32;
  wf_all : Forall writable (f_trees f)
}.

Record forest_copy (f f' : forest) : Prop := {
  fc_classes : f_num_classes f' = f_num_classes f;
  fc_trees : f_num_trees f' = f_num_trees f;
  fc_depth : f_max_depth f' = f_max_depth f;
  fc_all : Forall2 dtree_copy (f_trees f) (f_trees f')
}.

(** Equal trees; the order of the stored samples, which no prediction depends on, is left open. *)
Record same_dtree (t u : dtree) : Prop := {
  sd_root : t_root t = t_root u;
  sd_classes : t_classes t = t_classes u;
  sd_features : t_num_features t = t_num_features u;
  sd_depth : t_max_depth t = t_max_depth u;
  sd_data : Permutation (t_data t) (t_data u)
}.
