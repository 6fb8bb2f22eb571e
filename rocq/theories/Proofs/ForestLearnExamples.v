(** What the examples of C115 use. *)
From Coq Require Import ZArith Bool Ascii String Lia List.
From Verif Require Import Model.Base Model.Float Model.DatasetM Model.TreeM Model.ForestM Model.ModelStringM Model.PolicyModelsM Model.ConfigM Model.RuntimeM
  Spec.DatasetSpec Spec.TreeSpec Spec.ForestSpec Spec.InsertionSort Spec.PolicyModelsSpec Spec.RuntimeSpec Proofs.InsertionSortFacts Proofs.RuntimeExamples Proofs.RuntimePolicyExamples
  Proofs.ForestExamples.
Import ListNotations.
Open Scope Z_scope.

(** Tree j draws the samples j and j+1 twice each: the smallest classes drawn are 0, 1 and 1. *)
Definition window : picker := fun n k => Nat.modulo (k / n + Nat.modulo k 2) n.
Lemma window_ok : picker_ok window.
Proof. intros n k H. apply Nat.mod_upper_bound. lia. Qed.

Lemma window_forest : exists f, f_train insertion_sort window (new_forest 3 3 2) ex_features ex_responses = Ok f /\
  map (drawn window ex_responses) [0; 1; 2]%nat = [[0; 1; 0; 1]; [1; 2; 1; 2]; [2; 1; 2; 1]] /\ f_predict f [f32_of_Z 1; f32_of_Z 5] = Ok 1.
Proof.
  destruct (ok_holds (f_train insertion_sort window (new_forest 3 3 2) ex_features ex_responses)
    (fun f => match f_predict f [f32_of_Z 1; f32_of_Z 5] with Ok v => v =? 1 | _ => false end)) as (f & E & H); [vm_compute; reflexivity|].
  exists f. split; [exact E|]. clear E. split; [reflexivity|]. apply ok_is. exact H.
Qed.

(** Every sample is drawn for every tree. *)
Definition forest_platform : platform := {| p_sort := insertion_sort; p_pick := fun n k => Nat.modulo k n; p_libm := p_libm example_platform |}.
Definition forest_explore : list op :=
  make "r" 2 0 "RandomForest,explore=RoundRobin,num_trees=3" :: execution 0 1 0 1 ++ execution 0 1 10 15 ++ execution 0 2 20 25 ++ execution 0 2 30 31.
Definition forest_train : list op := forest_explore ++ [OpTrain 0 0 true false].
Definition forest_b (m : model) : bool := match m with MForest _ false f _ => Nat.eqb (List.length (f_trees f)) 3 | _ => false end.

Lemma forest_run : exists w xs R n f e w2 xs2,
  run forest_platform (start_world plain []) forest_train = Ok (w, xs) /\
  nth_error (w_regions w) 0 = Some R /\ r_model R = MForest n false f e /\ List.length (f_trees f) = 3%nat /\ run forest_platform w later_calls = Ok (w2, xs2) /\ answers later_calls xs2 0 = [0; 0] /\
  best_policy_for [f32_of_Z 1] (ds_to_vector (r_dataset R)) 0 /\ best_policy_for [f32_of_Z 2] (ds_to_vector (r_dataset R)) 1.
Proof.
  destruct (run_holds forest_platform (start_world plain []) forest_train
    (fun s => match run forest_platform (fst s) later_calls with
      | Ok (w', xs') => region_b (fst s) 0 (fun R => forest_b (r_model R) && best_policy_b [f32_of_Z 1] (ds_to_vector (r_dataset R)) 0 && best_policy_b [f32_of_Z 2] (ds_to_vector (r_dataset R)) 1)
          && zs_eqb (answers later_calls xs' 0) [0; 0]
      | _ => false end)) as (w & xs & E & H); [vm_compute; reflexivity|].
  cbn [fst] in H. destruct (run forest_platform w later_calls) as [[w' xs']| | | |] eqn:E2; try discriminate H.
  apply andb_prop in H as [H K]. apply region_b_true in H as (R & ER & H). apply zs_eqb_true in K. apply andb_prop in H as [H B2]. apply andb_prop in H as [H B1].
  apply best_policy_true in B1, B2. unfold forest_b in H. destruct (r_model R) as [| | | | | |n [|] f e|] eqn:EM; try discriminate H. apply Nat.eqb_eq in H.
  exists w, xs, R, n, f, e, w', xs'. split; [exact E|]. split; [exact ER|]. split; [exact EM|]. split; [exact H|]. split; [exact E2|]. split; [exact K|]. split; [exact B1|exact B2].
Qed.

Lemma forest_no_load : forall os1 o os2 w1 xs1, forest_train = os1 ++ o :: os2 -> run forest_platform (start_world plain []) os1 = Ok (w1, xs1) -> no_load w1 o.
Proof.
  change forest_train with (make "r" 2 0 "RandomForest,explore=RoundRobin,num_trees=3" :: tl forest_train).
  apply no_load_run; [|reflexivity]. split; [reflexivity|]. split; [left; reflexivity|]. intros name ps E.
  assert (X : name = $"RandomForest" /\ param_find ($"load") ps = None /\ param_find ($"load-dataset") ps = None) by (vm_compute in E; inversion E; repeat split; reflexivity).
  destruct X as (-> & X1 & X2). split; [discriminate|]. split; [discriminate|]. split; assumption.
Qed.
