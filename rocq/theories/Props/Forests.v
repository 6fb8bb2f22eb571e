(** Properties C27, C28 and C29: random forests. *)
From Coq Require Import List ZArith Bool Ascii String Lia.
From Flocq Require Import BinarySingleNaN.
From Verif Require Import Model.Base Model.Float Model.TreeM Model.ForestM
  Spec.DecimalSpec Spec.DatasetFileSpec Spec.TreeSpec Spec.TreeFileSpec Spec.InsertionSort Spec.ForestSpec
  Proofs.InsertionSortFacts Proofs.ForestFacts Proofs.ForestExamples.
Import ListNotations.
Open Scope Z_scope.

Theorem C27_plurality : forall f x vs, 1 <= f_num_classes f -> votes_for x f vs ->
  Forall (fun v => 0 <= v < f_num_classes f) vs ->
  exists c, f_predict f x = Ok c /\ plurality (f_num_classes f) vs c.
Proof. exact forest_votes. Qed.
Print Assumptions C27_plurality.

(** Votes 2, 1, 0, 1, 2: classes 1 and 2 tie. *)
Example C27_nonvacuous :
  let leaf c := mkTree [] [] (Node zero32 1 c (-1) zero32 Null Null []) 1 1 in
  let f := mkForest (map leaf [2; 1; 0; 1; 2]) 3 5 1 in
  votes_for [] f [2; 1; 0; 1; 2] /\ Forall (fun v => 0 <= v < 3) [2; 1; 0; 1; 2] /\ f_predict f [] = Ok 1.
Proof.
  cbv zeta. split; [|split].
  - unfold votes_for. cbn [f_trees map]. repeat constructor.
  - repeat (constructor; [lia|]). constructor.
  - apply ok_is. vm_compute. reflexivity.
Qed.

Theorem C28_training_deterministic : forall srt srt' pick f g k features responses,
  sorter_ok srt -> sorter_ok srt' -> picker_ok pick -> List.length responses = List.length features ->
  uniform_samples k (combine features responses) ->
  f_num_trees f = f_num_trees g -> f_max_depth f = f_max_depth g ->
  match f_train srt pick f features responses, f_train srt' pick g features responses with
  | Ok u, Ok v => exists ts ts', f_trees u = f_trees f ++ ts /\ f_trees v = f_trees g ++ ts' /\ Forall2 same_dtree ts ts' /\
      List.length ts = Z.to_nat (f_num_trees f)
  | Throw, Throw | Abort, Abort | UB, UB | Fuel, Fuel => True
  | _, _ => False
  end.
Proof. exact forest_training_deterministic. Qed.
Print Assumptions C28_training_deterministic.

Theorem C28_same_trees_same_predictions : forall f g x, f_num_classes f = f_num_classes g ->
  Forall2 same_dtree (f_trees f) (f_trees g) -> f_predict f x = f_predict g x.
Proof. exact same_trees_predict. Qed.
Print Assumptions C28_same_trees_same_predictions.

Theorem C28_training_succeeds : forall srt pick f k features responses, sorter_ok srt -> picker_ok pick ->
  features <> [] -> List.length responses = List.length features ->
  uniform_samples k (combine features responses) -> consistent (combine features responses) ->
  Z.of_nat (List.length features) <= 2 ^ 24 ->
  Z.of_nat (List.length (nodup Z.eq_dec responses)) <= 1024 ->
  exists f', f_train srt pick f features responses = Ok f'.
Proof. exact forest_training_succeeds. Qed.
Print Assumptions C28_training_succeeds.

Theorem C28_trained_forests : forall srt pick f features responses f', sorter_ok srt -> picker_ok pick ->
  0 <= f_num_classes f < 2 ^ 31 -> 0 <= f_num_trees f < 2 ^ 32 -> 0 <= f_max_depth f < 2 ^ 32 ->
  f_train srt pick f features responses = Ok f' -> List.length responses = List.length features ->
  Z.of_nat (List.length features) < 2 ^ 64 ->
  Forall (fun x : list f32 => Z.of_nat (List.length x) < 2 ^ 31 /\ Forall normal_range x) features ->
  Forall is_int responses -> Forall (fun t => Forall normal_range (tree_floats (t_root t))) (f_trees f') ->
  Forall writable (f_trees f) ->
  writable_forest f' /\
  Z.of_nat (List.length (f_trees f')) = Z.of_nat (List.length (f_trees f)) + f_num_trees f'.
Proof. exact trained_forest_writable. Qed.
Print Assumptions C28_trained_forests.

Theorem C28_save_load : forall f, writable_forest f -> Z.of_nat (List.length (f_trees f)) = f_num_trees f ->
  exists text f', f_save f = Ok text /\ forest_copy f f' /\
    forall a b, f_load (new_forest (f_num_classes f) a b) text = Ok f'.
Proof. exact saved_forest_loads. Qed.
Print Assumptions C28_save_load.

Theorem C28_predictions : forall f text f' a b x, writable_forest f ->
  Z.of_nat (List.length (f_trees f)) = f_num_trees f ->
  Forall (fun t => Forall (fun y : f32 => six_digit_copy y y) (thresholds (t_root t))) (f_trees f) ->
  f_save f = Ok text -> f_load (new_forest (f_num_classes f) a b) text = Ok f' -> f_predict f' x = f_predict f x.
Proof. exact saved_forest_predicts. Qed.
Print Assumptions C28_predictions.

Example C28_nonvacuous : exists f,
  sorter_ok insertion_sort /\ picker_ok ex_pick /\
  uniform_samples 2 (combine ex_features ex_responses) /\ consistent (combine ex_features ex_responses) /\
  f_train insertion_sort ex_pick (new_forest 3 3 2) ex_features ex_responses = Ok f /\
  writable_forest f /\ Z.of_nat (List.length (f_trees f)) = f_num_trees f /\ f_num_trees f = 3.
Proof.
  destruct (ok_holds (f_train insertion_sort ex_pick (new_forest 3 3 2) ex_features ex_responses)
    (fun f => forallb (fun t => normal_b (tree_floats (t_root t))) (f_trees f) && (f_num_trees f =? 3))%bool)
    as (f & E & H); [vm_compute; reflexivity|].
  exists f. apply andb_prop in H as [H N]. apply Z.eqb_eq in N.
  destruct ex_ranges as [R1 R2].
  destruct (trained_forest_writable insertion_sort ex_pick (new_forest 3 3 2) ex_features ex_responses f
    insertion_sort_ok ex_pick_ok) as [W L]; auto; try (cbn; lia).
  - apply Forall_forall. intros t Ht. apply normal_list_b. rewrite forallb_forall in H. auto.
  - constructor.
  - split; [exact insertion_sort_ok|]. split; [exact ex_pick_ok|].
    split; [apply uniform_b; vm_compute; reflexivity|]. split; [apply consistent_b; vm_compute; reflexivity|]. auto.
Qed.

Theorem C29_retrained_rejected : forall srt pick f fs rs f1 fs' rs' f2 a b, 1 <= f_num_trees f -> f_trees f = [] ->
  f_train srt pick f fs rs = Ok f1 -> f_train srt pick f1 fs' rs' = Ok f2 -> writable_forest f2 ->
  Z.of_nat (List.length (f_trees f2)) = 2 * f_num_trees f2 /\
  exists text, f_save f2 = Ok text /\ f_load (new_forest (f_num_classes f2) a b) text = Abort.
Proof. exact retrained_forest. Qed.
Print Assumptions C29_retrained_rejected.

Example C29_nonvacuous : exists f1 f2,
  f_train insertion_sort ex_pick (new_forest 3 3 2) ex_features ex_responses = Ok f1 /\
  f_train insertion_sort ex_pick f1 ex_features ex_responses = Ok f2 /\ writable_forest f2 /\ f_num_trees f2 = 3.
Proof.
  destruct C28_nonvacuous as (f1 & HS & HP & U & C & E & W & L & N). exists f1.
  destruct (ok_holds (let* f1 := f_train insertion_sort ex_pick (new_forest 3 3 2) ex_features ex_responses in
    f_train insertion_sort ex_pick f1 ex_features ex_responses)
    (fun f => forallb (fun t => normal_b (tree_floats (t_root t))) (f_trees f) && (f_num_trees f =? 3))%bool)
    as (f & E2 & H); [vm_compute; reflexivity|].
  rewrite E in E2. cbn [bind] in E2. exists f. apply andb_prop in H as [H N2]. apply Z.eqb_eq in N2.
  destruct ex_ranges as [R1 R2]. destruct W as [W1 W2 W3 W4].
  destruct (trained_forest_writable insertion_sort ex_pick f1 ex_features ex_responses f HS HP) as [W _]; auto; try (cbn; lia).
  apply Forall_forall. intros t Ht. apply normal_list_b. rewrite forallb_forall in H. auto.
Qed.
