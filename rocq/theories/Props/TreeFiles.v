(** Properties C25, C26 and C59: decision tree files. *)
From Coq Require Import List ZArith Bool Ascii String.
From Flocq Require Import BinarySingleNaN.
From Verif Require Import Model.Base Model.Float Model.Decimal Model.ParserM Model.TreeM Model.TreeIO
  Spec.DecimalSpec Spec.DatasetFileSpec Spec.TreeSpec Spec.TreeFileSpec Spec.InsertionSort
  Proofs.DatasetFileTheorems Proofs.InsertionSortFacts Proofs.TreeFileProps Proofs.TreeFileExamples.
Import ListNotations.
Open Scope Z_scope.

Theorem C25_save_load : forall t, writable t ->
  exists text t', dt_save t = Ok text /\ dtree_copy t t' /\ forall md, dt_load (new_dtree md) text = Ok t'.
Proof. exact saved_tree_loads. Qed.
Print Assumptions C25_save_load.

Theorem C25_predictions : forall t text t' md x, writable t ->
  Forall (fun y : f32 => six_digit_copy y y) (thresholds (t_root t)) ->
  dt_save t = Ok text -> dt_load (new_dtree md) text = Ok t' -> dt_predict t' x = dt_predict t x.
Proof. exact saved_tree_predicts. Qed.
Print Assumptions C25_predictions.

Theorem C25_trained_trees : forall srt md fs rs t, sorter_ok srt -> 0 <= md < 2 ^ 32 ->
  dt_train srt (new_dtree md) fs rs = Ok t ->
  Z.of_nat (List.length fs) < 2 ^ 64 ->
  Forall (fun f : list f32 => Z.of_nat (List.length f) < 2 ^ 31 /\ Forall normal_range f) fs ->
  Forall is_int rs -> Forall normal_range (tree_floats (t_root t)) -> writable t.
Proof. exact trained_writable. Qed.
Print Assumptions C25_trained_trees.

Example C25_nonvacuous :
  writable ex_tree /\ Forall (fun y : f32 => six_digit_copy y y) (thresholds (t_root ex_tree)) /\
  dt_predict ex_tree [f32_of_Z 7; f32_of_Z 0] = Ok 5 /\
  dt_save ex_tree = Ok ($"# DecisionTreeImpl
tree: {
  max_depth: 3,
  classes: [ 1, 4, 5, ],
  num_features: 2,
  root: {
    gini: 2,
    num_samples: 3,
    predicted_class: 1,
    feature_idx: 0,
    threshold: 7,
    count_per_class: {
    1: 1,
    4: 1,
    5: 1,
    },
    left: {
      gini: 0,
      num_samples: 1,
      predicted_class: 4,
      feature_idx: -1,
      threshold: 0,
      count_per_class: {
      1: 1,
      4: 0,
      5: 2,
      },
    },
    right: {
      gini: 0,
      num_samples: 2,
      predicted_class: 5,
      feature_idx: 1,
      threshold: -40,
      count_per_class: {
      1: 2,
      4: 0,
      5: 0,
      },
      left: {
        gini: 0,
        num_samples: 1,
        predicted_class: 5,
        feature_idx: -1,
        threshold: 0,
        count_per_class: {
        1: 0,
        4: 0,
        5: 7,
        },
      },
    },
  },
  data: {
    0: { features: [ 3, -2, ], class: 1 },
    1: { features: [ ], class: 5 },
  },
}
").
Proof.
  assert (N : forall z, Z.abs z < 1000000 -> normal_range (f32_of_Z z)).
  { intros z B. apply small_integer_normal; [discriminate|]. now apply small_integer_32. }
  assert (K : forall z, Z.abs z < 1000000 -> six_digit_copy (f32_of_Z z) (f32_of_Z z)).
  { intros z B. apply small_integer_survives; [reflexivity|]. now apply small_integer_32. }
  split; [|split].
  - constructor; cbn [ex_tree t_max_depth t_num_features t_classes t_root t_data ex_leaf writable_tree].
    + split; [discriminate|reflexivity].
    + split; [discriminate|reflexivity].
    + repeat constructor.
    + repeat (constructor; [split; discriminate|]). constructor.
    + discriminate.
    + repeat split; try apply N; try reflexivity; try discriminate;
        repeat (apply Forall_cons; [split; [discriminate|reflexivity]|]); apply Forall_nil.
    + reflexivity.
    + repeat (apply Forall_cons; [split; [cbn [fst]|split; discriminate]|]); try apply Forall_nil;
        repeat (apply Forall_cons; [apply N; reflexivity|]); apply Forall_nil.
  - cbn [ex_tree t_root thresholds ex_leaf app].
    repeat (apply Forall_cons; [apply K; reflexivity|]); apply Forall_nil.
  - split; [apply ok_is|]; vm_compute; reflexivity.
Qed.

Theorem C26_threshold_rounding : exists file t saved t' x,
  dt_load (new_dtree 2) file = Ok t /\ dt_save t = Ok saved /\ dt_load (new_dtree 2) saved = Ok t' /\
  dt_predict t x = Ok 0 /\ dt_predict t' x = Ok 1.
Proof. exact resaving_changes_decision. Qed.
Print Assumptions C26_threshold_rounding.

Theorem C59_trained_trees_save : forall srt t fs rs t', sorter_ok srt -> 0 <= t_max_depth t ->
  dt_train srt t fs rs = Ok t' -> exists text, dt_save t' = Ok text.
Proof. exact trained_saves. Qed.
Print Assumptions C59_trained_trees_save.

(** Training again keeps the old classes; the counts grow with them. *)
Example C59_nonvacuous : exists t t',
  sorter_ok insertion_sort /\
  dt_train insertion_sort (new_dtree 2) [[f32_of_Z 1]; [f32_of_Z 2]] [3; 4] = Ok t /\
  dt_train insertion_sort t [[f32_of_Z 1]; [f32_of_Z 2]] [0; 4] = Ok t' /\ t_classes t' = [0; 3; 4].
Proof.
  destruct (ok_holds (let* t := dt_train insertion_sort (new_dtree 2) [[f32_of_Z 1]; [f32_of_Z 2]] [3; 4] in
                      let* t' := dt_train insertion_sort t [[f32_of_Z 1]; [f32_of_Z 2]] [0; 4] in Ok (t, t'))
    (fun q => if list_eq_dec Z.eq_dec (t_classes (snd q)) [0; 3; 4] then true else false)) as ([t t'] & E & H).
  - vm_compute. reflexivity.
  - apply TreeFacts.bind_inv in E as (t1 & E1 & E). apply TreeFacts.bind_inv in E as (t2 & E2 & E). injection E as <- <-.
    cbn [snd] in H. destruct (list_eq_dec Z.eq_dec (t_classes t2) [0; 3; 4]); [|discriminate].
    exists t1, t2. split; [exact insertion_sort_ok|]. auto.
Qed.
