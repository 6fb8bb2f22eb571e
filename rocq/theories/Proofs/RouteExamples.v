(** Runs in which a tree is asked about too few features (C130). *)
From Coq Require Import ZArith Bool Ascii String Lia List.
From Flocq Require Import BinarySingleNaN.
From Verif Require Import Model.Base Model.Float Model.DatasetM Model.TreeM Model.ForestM Model.ModelStringM Model.PolicyModelsM Model.ConfigM Model.RuntimeM
  Spec.TreeSpec Spec.RouteSpec Proofs.TreeFacts Proofs.InsertionSortFacts Proofs.RuntimeExamples Proofs.RuntimePolicyExamples Proofs.RouteFacts.
Import ListNotations.
Open Scope Z_scope.

(** A region declared with [k] features. *)
Definition make_of (k : Z) (model : string) : op := OpRegion k ($"r") 2 0 ($model) [] no_init.

(** Two features, of which the second decides which policy is faster. *)
Definition two_features (kind : string) : list op :=
  [make_of 2 kind;
   start 0 10; give s0 3; give s0 1; ask_policy s0; finish s0 11; start 0 20; give s0 3; give s0 1; ask_policy s0; finish s0 29;
   start 0 30; give s0 3; give s0 9; ask_policy s0; finish s0 39; start 0 40; give s0 3; give s0 9; ask_policy s0; finish s0 41;
   OpTrain 0 0 true false].

(** A later process, which gives one feature or two. *)
Definition one_feature (kind : string) : list op := [make_of 1 kind; start 0 10; give s0 3; ask_policy s0].
Definition both_features (kind : string) : list op := [make_of 1 kind; start 0 10; give s0 3; give s0 1; ask_policy s0].

Definition ub_b {A} (x : outcome A) : bool := match x with UB => true | _ => false end.
Definition got_policy_b (x : outcome (world * list result)) : bool :=
  match x with Ok (_, xs) => match rev xs with GotPolicy _ :: _ => true | _ => false end | _ => false end.

Lemma stored_for_two : exists w xs w2 ys k, run example_platform (start_world storing []) (two_features "DecisionTree,explore=RoundRobin") = Ok (w, xs) /\
  run example_platform (start_world storing (w_files w)) (one_feature "DecisionTree,load") = UB /\
  run example_platform (start_world storing (w_files w)) (both_features "DecisionTree,load") = Ok (w2, ys ++ [GotPolicy k]).
Proof.
  destruct (run_holds example_platform (start_world storing []) (two_features "DecisionTree,explore=RoundRobin")
    (fun s => ub_b (run example_platform (start_world storing (w_files (fst s))) (one_feature "DecisionTree,load")) &&
              got_policy_b (run example_platform (start_world storing (w_files (fst s))) (both_features "DecisionTree,load")))) as (w & xs & E & H); [vm_compute; reflexivity|].
  cbn [fst] in H. apply andb_prop in H. destruct H as [H K]. exists w, xs. rewrite E. clear E.
  assert (A : run example_platform (start_world storing (w_files w)) (one_feature "DecisionTree,load") = UB).
  { destruct (run example_platform (start_world storing (w_files w)) (one_feature "DecisionTree,load")); try discriminate H. reflexivity. }
  destruct (run example_platform (start_world storing (w_files w)) (both_features "DecisionTree,load")) as [[w2 ys]| | | |]; try discriminate K.
  cbn [got_policy_b] in K. destruct (rev ys) as [|[| | |k] zs] eqn:R; try discriminate K. exists w2, (rev zs), k. split; [reflexivity|]. split; [exact A|].
  rewrite <- (rev_involutive ys), R. reflexivity.
Qed.

(** The same within one process: the region is created for two features, trained, and asked with one. *)
Lemma asked_with_one : exists w xs, run example_platform (start_world storing []) (two_features "DecisionTree,explore=RoundRobin") = Ok (w, xs) /\
  run example_platform w [start 0 50; give s0 3; ask_policy s0] = UB.
Proof.
  destruct (run_holds example_platform (start_world storing []) (two_features "DecisionTree,explore=RoundRobin")
    (fun s => ub_b (run example_platform (fst s) [start 0 50; give s0 3; ask_policy s0]))) as (w & xs & E & H); [vm_compute; reflexivity|].
  cbn [fst] in H. exists w, xs. split; [exact E|]. clear E. destruct (run example_platform w [start 0 50; give s0 3; ask_policy s0]); try discriminate H. reflexivity.
Qed.

(** A tree that asks about feature 1 first, and about feature 2 when that is large. *)
Definition asking_tree : tree :=
  Node one32 4 0 1 (f32_of_Z 5) (Node zero32 2 0 (-1) zero32 Null Null [2; 0])
    (Node one32 2 1 2 (f32_of_Z 7) (Node zero32 1 1 (-1) zero32 Null Null [0; 1]) Null [1; 1]) [3; 1].

Lemma asking_routes :
  (exists u, route [f32_of_Z 3; f32_of_Z 9] asking_tree u /\ beyond [f32_of_Z 3; f32_of_Z 9] u) /\
  (exists u, route [f32_of_Z 3; f32_of_Z 1] asking_tree u /\ ends [f32_of_Z 3; f32_of_Z 1] u 0) /\
  (exists u, route [f32_of_Z 3; f32_of_Z 9; f32_of_Z 8] asking_tree u /\ ends [f32_of_Z 3; f32_of_Z 9; f32_of_Z 8] u 1).
Proof.
  split; [|split].
  - eexists. split; [eapply route_right; [lia|reflexivity|vm_compute; reflexivity|apply route_here]|]. cbn. lia.
  - eexists. split; [eapply route_left; [lia|reflexivity|vm_compute; reflexivity|apply route_here]|]. cbn. auto.
  - eexists. split; [eapply route_right; [lia|reflexivity|vm_compute; reflexivity|apply route_here]|]. split; [reflexivity|]. right.
    exists (f32_of_Z 8). split; [lia|]. split; [reflexivity|]. replace (lt32 (f32_of_Z 8) (f32_of_Z 7)) with false by (vm_compute; reflexivity). reflexivity.
Qed.

Definition asking_forest : forest := mkForest [mkTree [] [0; 1] (Node zero32 1 1 (-1) zero32 Null Null [0; 1]) 3 2; mkTree [] [0; 1] asking_tree 3 2] 2 2 2.
Lemma asking_vote : 0 < f_num_classes asking_forest /\ Forall (fun t => t_root t <> Null) (f_trees asking_forest) /\ f_predict asking_forest [f32_of_Z 3] = UB /\
  f_predict asking_forest [f32_of_Z 3; f32_of_Z 1] = Ok 0.
Proof.
  split; [reflexivity|]. split; [constructor; [discriminate|]; constructor; [discriminate|constructor]|]. split; vm_compute; reflexivity.
Qed.
