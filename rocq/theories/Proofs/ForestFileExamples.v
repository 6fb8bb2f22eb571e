(** What the examples of C101 and C102 use. *)
From Coq Require Import List ZArith Bool Ascii String Lia.
From Verif Require Import Model.Base Model.Float Model.Decimal Model.ParserM Model.TreeM Model.TreeIO Model.ForestM
  Spec.DecimalSpec Spec.DatasetFileSpec Spec.TreeSpec Spec.TreeFileSpec Spec.ForestSpec Spec.ForestFileSpec
  Proofs.PolicyNetFacts Proofs.LoadFacts Proofs.InsertionSortFacts Proofs.TreeFileProps Proofs.TreeFileExamples Proofs.ForestFacts Proofs.ForestClasses.
Import ListNotations.
Open Scope Z_scope.

(** Two trees over six classes. *)
Definition ex_forest : forest := mkForest [ex_tree; ex_tree] 6 2 3.

Lemma ex_forest_writable : writable ex_tree -> writable_forest ex_forest.
Proof. intros W. constructor; cbn [ex_forest f_num_classes f_num_trees f_max_depth f_trees]; try (split; [discriminate|reflexivity]). apply Forall_cons; [exact W|]. apply Forall_cons; [exact W|]. apply Forall_nil. Qed.

(** Loads with the first tree's root predicting class [c]. *)
Definition loads_b (o : outcome forest) (k : Z) (c : Z) : bool :=
  match o with
  | Ok (mkForest (mkTree _ _ (Node _ _ c' _ _ _ _ _) _ _ :: _) k' 2 3) => (k' =? k) && (c' =? c)
  | _ => false
  end.
Definition undefined_b (o : outcome forest) : bool := match o with UB => true | _ => false end.
Definition aborts_b (o : outcome forest) : bool := match o with Abort => true | _ => false end.

(** The whole text loads, and so does the text with something behind it; without the last newline, or without its second half, it does not. *)
Lemma ex_forest_texts : exists text, f_save ex_forest = Ok text /\
  loads_b (f_load (new_forest 6 1 1) text) 6 1 = true /\ loads_b (f_load (new_forest 6 1 1) (text ++ $"tree: {")) 6 1 = true /\
  undefined_b (f_load (new_forest 6 1 1) (removelast text)) = true /\ undefined_b (f_load (new_forest 6 1 1) (firstn (List.length text / 2) text)) = true /\
  aborts_b (f_load (new_forest 6 1 1) []) = true.
Proof.
  destruct (ok_holds (f_save ex_forest) (fun text => loads_b (f_load (new_forest 6 1 1) text) 6 1 && loads_b (f_load (new_forest 6 1 1) (text ++ $"tree: {")) 6 1 &&
    undefined_b (f_load (new_forest 6 1 1) (removelast text)) && undefined_b (f_load (new_forest 6 1 1) (firstn (List.length text / 2) text)))%bool) as (text & E & H); [vm_compute; reflexivity|].
  exists text. apply andb_prop in H as [H H4]. apply andb_prop in H as [H H3]. apply andb_prop in H as [H1 H2].
  split; [exact E|]. split; [exact H1|]. split; [exact H2|]. split; [exact H3|]. split; [exact H4|]. reflexivity.
Qed.

(** The classes replaced. *)
Definition head_text : bytes := $"# RandomForestImpl
rfc: {
  num_trees: 2,
  max_depth: 3,
".

Lemma ex_relisted : exists text b, f_save ex_forest = Ok text /\ text = head_text ++ classes_line (all_classes 6) ++ b /\
  loads_b (f_load (new_forest 6 1 1) (head_text ++ classes_line [9; -3; 5] ++ b)) 6 1 = true /\
  loads_b (f_load (new_forest 2 1 1) (head_text ++ classes_line [0; 1; 2; 3; 4; 1] ++ b)) 2 1 = true /\
  undefined_b (f_load (new_forest 6 1 1) (head_text ++ classes_line [2147483647; 5] ++ b)) = true.
Proof.
  set (n := List.length (head_text ++ classes_line (all_classes 6))).
  destruct (ok_holds (f_save ex_forest) (fun text => bytes_eqb (head_text ++ classes_line (all_classes 6)) (firstn n text) &&
    loads_b (f_load (new_forest 6 1 1) (head_text ++ classes_line [9; -3; 5] ++ skipn n text)) 6 1 &&
    loads_b (f_load (new_forest 2 1 1) (head_text ++ classes_line [0; 1; 2; 3; 4; 1] ++ skipn n text)) 2 1 &&
    undefined_b (f_load (new_forest 6 1 1) (head_text ++ classes_line [2147483647; 5] ++ skipn n text)))%bool) as (text & E & H); [vm_compute; reflexivity|].
  apply andb_prop in H as [H H4]. apply andb_prop in H as [H H3]. apply andb_prop in H as [H1 H2].
  exists text, (skipn n text). split; [exact E|]. split; [|auto].
  rewrite app_assoc, <- (firstn_skipn n text) at 1. f_equal. symmetry. apply bytes_eqb_eq. exact H1.
Qed.
