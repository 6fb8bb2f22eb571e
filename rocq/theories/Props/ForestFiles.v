(** Properties C101 and C102: reading the files of trees and forests. *)
From Coq Require Import List ZArith Bool Ascii String Lia.
From Verif Require Import Model.Base Model.Float Model.Decimal Model.TreeM Model.TreeIO Model.ForestM
  Spec.DecimalSpec Spec.DatasetFileSpec Spec.TreeSpec Spec.TreeFileSpec Spec.ForestSpec Spec.ForestFileSpec
  Proofs.TreeFileScan Proofs.TreeFileExamples Proofs.ForestClasses Proofs.ForestFileExamples Props.TreeFiles.
Import ListNotations.
Open Scope Z_scope.

Theorem C101_tree_terminates : forall t s, dt_load t s <> Fuel.
Proof. exact tree_load_terminates. Qed.
Print Assumptions C101_tree_terminates.

Theorem C101_forest_terminates : forall f s, f_load f s <> Fuel.
Proof. exact forest_load_terminates. Qed.
Print Assumptions C101_forest_terminates.

Theorem C101_tree_trailing : forall t s x t', dt_load t s = Ok t' -> dt_load t (s ++ x) = Ok t'.
Proof. exact tree_load_extends. Qed.
Print Assumptions C101_tree_trailing.

Theorem C101_forest_trailing : forall f s x f', f_load f s = Ok f' -> f_load f (s ++ x) = Ok f'.
Proof. exact forest_load_extends. Qed.
Print Assumptions C101_forest_trailing.

Theorem C101_truncated_tree : forall t text s b t0 t', writable t -> dt_save t = Ok text -> text = s ++ b -> b <> [] ->
  dt_load t0 s <> Ok t'.
Proof. exact truncated_tree. Qed.
Print Assumptions C101_truncated_tree.

Theorem C101_truncated_forest : forall f text s b x y f', writable_forest f ->
  Z.of_nat (List.length (f_trees f)) = f_num_trees f -> f_save f = Ok text -> text = s ++ b -> b <> [] ->
  f_load (new_forest (f_num_classes f) x y) s <> Ok f'.
Proof. exact truncated_forest. Qed.
Print Assumptions C101_truncated_forest.

Example C101_nonvacuous : writable ex_tree /\ writable_forest ex_forest /\ Z.of_nat (List.length (f_trees ex_forest)) = f_num_trees ex_forest /\
  exists text, f_save ex_forest = Ok text /\
    loads_b (f_load (new_forest 6 1 1) text) 6 1 = true /\ loads_b (f_load (new_forest 6 1 1) (text ++ $"tree: {")) 6 1 = true /\
    undefined_b (f_load (new_forest 6 1 1) (removelast text)) = true /\
    undefined_b (f_load (new_forest 6 1 1) (firstn (List.length text / 2) text)) = true /\
    aborts_b (f_load (new_forest 6 1 1) []) = true.
Proof.
  split; [exact (proj1 C25_nonvacuous)|]. split; [exact (ex_forest_writable (proj1 C25_nonvacuous))|]. split; [reflexivity|exact ex_forest_texts].
Qed.

Theorem C102_only_last_class : forall f text a b cs k x y, writable_forest f ->
  Z.of_nat (List.length (f_trees f)) = f_num_trees f ->
  f_save f = Ok text -> text = a ++ classes_line (all_classes (f_num_classes f)) ++ b -> ~ In "["%char a -> Forall is_int cs ->
  exists f', (forall u v, f_load (new_forest (f_num_classes f) u v) text = Ok f') /\
  (In 2147483647 cs -> f_load (new_forest k x y) (a ++ classes_line cs ++ b) = UB) /\
  (~ In 2147483647 cs -> last cs (-1) + 1 = k ->
     f_load (new_forest k x y) (a ++ classes_line cs ++ b) = Ok (mkForest (f_trees f') k (f_num_trees f') (f_max_depth f'))) /\
  (~ In 2147483647 cs -> last cs (-1) + 1 <> k -> f_load (new_forest k x y) (a ++ classes_line cs ++ b) = Throw).
Proof. exact relisted. Qed.
Print Assumptions C102_only_last_class.

Theorem C102_classes_found : forall f text, f_save f = Ok text ->
  exists a b, text = a ++ classes_line (all_classes (f_num_classes f)) ++ b /\ ~ In "["%char a.
Proof. exact has_classes. Qed.
Print Assumptions C102_classes_found.

(** Six classes, listed as 9, -3, 5; as many for two policies; and with the largest int. *)
Example C102_nonvacuous : writable_forest ex_forest /\ ~ In "["%char head_text /\
  exists text b, f_save ex_forest = Ok text /\ text = head_text ++ classes_line (all_classes 6) ++ b /\
    loads_b (f_load (new_forest 6 1 1) (head_text ++ classes_line [9; -3; 5] ++ b)) 6 1 = true /\
    loads_b (f_load (new_forest 2 1 1) (head_text ++ classes_line [0; 1; 2; 3; 4; 1] ++ b)) 2 1 = true /\
    undefined_b (f_load (new_forest 6 1 1) (head_text ++ classes_line [2147483647; 5] ++ b)) = true.
Proof.
  split; [exact (ex_forest_writable (proj1 C25_nonvacuous))|]. split; [apply no_bracket_b; reflexivity|exact ex_relisted].
Qed.
