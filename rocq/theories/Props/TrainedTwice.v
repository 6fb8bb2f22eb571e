(** Property C117: training a forest trains it twice when the collected executions have trained it already. *)
From Coq Require Import ZArith Bool Ascii String Lia List.
From Verif Require Import Model.Base Model.Float Model.DatasetM Model.TreeM Model.ForestM Model.ModelStringM Model.PolicyModelsM Model.ConfigM Model.RuntimeM
  Spec.DatasetSpec Spec.ForestSpec Spec.TreeFileSpec Spec.RuntimeSpec Spec.FileNames Proofs.RuntimeExamples Proofs.ForestLearnExamples Proofs.RuntimeTwice Proofs.RuntimeKeptExamples.
Import ListNotations.
Open Scope Z_scope.

Theorem C117_trained_twice : forall P c files os w xs r R n f e w1 x1 R1 n1 f1 e1 st w' x, run P (start_world c files) os = Ok (w, xs) ->
  (forall os1 o os2 w1 xs1, os = os1 ++ o :: os2 -> run P (start_world c files) os1 = Ok (w1, xs1) -> no_load w1 o) ->
  nth_error (w_regions w) r = Some R -> r_model R = MForest n true f e ->
  step P w (OpCollect r) = Ok (w1, x1) -> nth_error (w_regions w1) r = Some R1 -> r_model R1 = MForest n1 false f1 e1 -> 0 < ds_size (r_dataset R1) ->
  step P w (OpTrain r st true false) = Ok (w', x) ->
  exists R' f2, nth_error (w_regions w') r = Some R' /\ r_model R' = MForest n1 false f2 e1 /\ f_num_trees f2 = f_num_trees f1 /\
    Z.of_nat (List.length (f_trees f2)) = Z.of_nat (List.length (f_trees f1)) + Z.max 0 (f_num_trees f1) /\ f_num_trees f1 <= Z.of_nat (List.length (f_trees f1)) /\
    (cf_store_models (w_config w1) <> 0 -> 1 <= f_num_trees f1 -> writable_forest f2 ->
      exists text, file_find (newest_file (w_config w1) (w_rank w1) ($"RandomForest") (r_name R')) (w_files w') = Some text /\
        forall a b, f_load (new_forest (f_num_classes f2) a b) text = Abort).
Proof. exact trained_twice. Qed.
Print Assumptions C117_trained_twice.

(** Two trees are asked for. The one execution on a device has ended; collecting it trains the region, training then trains it again: four trees.
    A later process that loads the stored model stops. *)
Example C117_nonvacuous :
  (forall os1 o os2 w1 xs1, pending_forest = os1 ++ o :: os2 -> run forest_platform (start_world storing []) os1 = Ok (w1, xs1) -> no_load w1 o) /\
  cf_store_models storing <> 0 /\
  exists w xs R n f e w1 R1 n1 f1 e1 w' R' f2,
  run forest_platform (start_world storing []) pending_forest = Ok (w, xs) /\
  nth_error (w_regions w) 0 = Some R /\ r_model R = MForest n true f e /\
  step forest_platform w (OpCollect 0) = Ok (w1, Done) /\ nth_error (w_regions w1) 0 = Some R1 /\ r_model R1 = MForest n1 false f1 e1 /\ 0 < ds_size (r_dataset R1) /\
  List.length (f_trees f1) = 2%nat /\ f_num_trees f1 = 2 /\
  step forest_platform w (OpTrain 0 0 true false) = Ok (w', Done) /\ nth_error (w_regions w') 0 = Some R' /\ r_model R' = MForest n1 false f2 e1 /\ List.length (f_trees f2) = 4%nat /\ writable_forest f2 /\
  step forest_platform (start_world storing (w_files w')) (make "r" 2 1 "RandomForest,explore=RoundRobin,load") = Abort.
Proof. split; [exact pending_no_load|]. split; [discriminate|exact twice_run]. Qed.
