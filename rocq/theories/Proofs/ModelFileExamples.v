(** Runs in which stored models are loaded. *)
From Coq Require Import ZArith Bool Ascii String Lia List.
From Flocq Require Import BinarySingleNaN.
From Verif Require Import Model.Base Model.Float Model.DatasetM Model.TreeM Model.ForestM Model.ModelStringM Model.PolicyModelsM Model.ConfigM Model.RuntimeM
  Spec.PolicyModelsSpec Spec.ModelFileSpec Spec.RuntimeSpec Spec.StartupSpec Spec.ForestSpec
  Proofs.TreeFacts Proofs.InsertionSortFacts Proofs.ModelStringFacts Proofs.ForestFacts Proofs.RuntimeExamples Proofs.RuntimePolicyExamples Proofs.ForestExamples Props.Forests Proofs.ModelFileFacts.
Import ListNotations.
Open Scope Z_scope.

(** Three policies, the last one the fastest; trained and stored. *)
Definition three_policies (kind : string) : list op :=
  [make "r" 3 0 kind; start 0 10; give s0 3; ask_policy s0; finish s0 20; start 0 23; give s0 3; ask_policy s0; finish s0 32;
   start 0 40; give s0 3; ask_policy s0; finish s0 41; OpTrain 0 0 true false].

(** A later process asks the same region, with two policies. *)
Definition two_policies (kind : string) : list op := [make "r" 2 0 kind; start 0 10; give s0 3; ask_policy s0].

Lemma three_then_two : exists w xs w2 x y z R, run example_platform (start_world storing []) (three_policies "DecisionTree,explore=RoundRobin") = Ok (w, xs) /\
  run example_platform (start_world storing (w_files w)) (two_policies "DecisionTree,load") = Ok (w2, [x; y; z; GotPolicy 2]) /\
  nth_error (w_regions w2) 0 = Some R /\ r_num_policies R = 2.
Proof.
  destruct (run_holds example_platform (start_world storing []) (three_policies "DecisionTree,explore=RoundRobin")
    (fun s => match run example_platform (start_world storing (w_files (fst s))) (two_policies "DecisionTree,load") with
      | Ok (w2, [_; _; _; GotPolicy k]) => (k =? 2) && match nth_error (w_regions w2) 0 with Some R => r_num_policies R =? 2 | None => false end
      | _ => false end)) as (w & xs & E & H); [vm_compute; reflexivity|].
  cbn [fst] in H. destruct (run example_platform (start_world storing (w_files w)) (two_policies "DecisionTree,load")) as [[w2 [|x [|y [|z [|[| | |k] [|]]]]]]| | | |] eqn:E2; try discriminate H.
  apply andb_prop in H. destruct H as [H K]. destruct (nth_error (w_regions w2) 0) as [R|] eqn:ER; [|discriminate K]. apply Z.eqb_eq in H, K. subst k.
  exists w, xs, w2, x, y, z, R. split; [exact E|]. split; [exact E2|]. split; [exact ER|exact K].
Qed.

Lemma forest_refused : exists w xs, run example_platform (start_world storing []) (three_policies "RandomForest,explore=RoundRobin") = Ok (w, xs) /\
  run example_platform (start_world storing (w_files w)) (two_policies "RandomForest,load") = Throw /\
  exists w2 x y z, run example_platform (start_world storing (w_files w)) (make "r" 3 0 "RandomForest,load" :: tl (two_policies "")) = Ok (w2, [x; y; z; GotPolicy 2]).
Proof.
  destruct (run_holds example_platform (start_world storing []) (three_policies "RandomForest,explore=RoundRobin")
    (fun s => match run example_platform (start_world storing (w_files (fst s))) (two_policies "RandomForest,load") with Throw => true | _ => false end &&
      match run example_platform (start_world storing (w_files (fst s))) (make "r" 3 0 "RandomForest,load" :: tl (two_policies "")) with Ok (_, [_; _; _; GotPolicy k]) => k =? 2 | _ => false end)) as (w & xs & E & H); [vm_compute; reflexivity|].
  cbn [fst] in H. apply andb_prop in H. destruct H as [H K]. exists w, xs. split; [exact E|]. clear E. split.
  - destruct (run example_platform (start_world storing (w_files w)) (two_policies "RandomForest,load")); try discriminate H. reflexivity.
  - destruct (run example_platform (start_world storing (w_files w)) (make "r" 3 0 "RandomForest,load" :: tl (two_policies ""))) as [[w2 [|x [|y [|z [|[| | |k] [|]]]]]]| | | |] eqn:E2; try discriminate K.
    apply Z.eqb_eq in K. subst k. exists w2, x, y, z. reflexivity.
Qed.

(** The file of the tree, read both ways. *)
Lemma stored_text : exists w xs text m1 m2, run example_platform (start_world storing []) (three_policies "DecisionTree,explore=RoundRobin") = Ok (w, xs) /\
  (exists R, nth_error (w_regions w) 0 = Some R /\ m_store (r_model R) = Ok (Some text)) /\
  (let* m := create_model example_platform ($"DecisionTree") 1 3 [] no_init in m_load m (Some text)) = Ok m1 /\
  create_from_file ($"DecisionTree") 3 (Some text) = Ok m2 /\ replies example_platform m2 [(fair_draws, [f32_of_Z 3])] = Ok [2].
Proof.
  destruct (run_holds example_platform (start_world storing []) (three_policies "DecisionTree,explore=RoundRobin")
    (fun s => match nth_error (w_regions (fst s)) 0 with
      | Some R => match m_store (r_model R) with
         | Ok (Some text) => match (let* m := create_model example_platform ($"DecisionTree") 1 3 [] no_init in m_load m (Some text)) with
            | Ok _ => match create_from_file ($"DecisionTree") 3 (Some text) with
               | Ok m2 => match replies example_platform m2 [(fair_draws, [f32_of_Z 3])] with Ok [k] => k =? 2 | _ => false end
               | _ => false end
            | _ => false end
         | _ => false end
      | _ => false end)) as (w & xs & E & H); [vm_compute; reflexivity|].
  cbn [fst] in H. destruct (nth_error (w_regions w) 0) as [R|] eqn:ER; [|discriminate H]. destruct (m_store (r_model R)) as [[text|]| | | |] eqn:EM; try discriminate H.
  destruct (let* m := create_model example_platform ($"DecisionTree") 1 3 [] no_init in m_load m (Some text)) as [m1| | | |] eqn:E1; try discriminate H.
  destruct (create_from_file ($"DecisionTree") 3 (Some text)) as [m2| | | |] eqn:E2; try discriminate H.
  destruct (replies example_platform m2 [(fair_draws, [f32_of_Z 3])]) as [[|k [|]]| | | |] eqn:E3; try discriminate H. apply Z.eqb_eq in H. subst k.
  exists w, xs, text, m1, m2. split; [exact E|]. split; [exists R; split; [exact ER|exact EM]|]. split; [exact E1|]. split; [exact E2|exact E3].
Qed.

(** A trained forest of three classes. *)
Lemma stored_forest : exists f text m, writable_forest f /\ f_num_classes f = 3 /\ m_store (MForest 3 false f None) = Ok (Some text) /\
  create_model example_platform ($"RandomForest") 1 2 [] no_init = Ok m.
Proof.
  destruct C28_nonvacuous as (f & _ & _ & _ & _ & E & W & _ & _). destruct (f_save_ok f W) as (text & ES & _).
  destruct (ok_holds (create_model example_platform ($"RandomForest") 1 2 [] no_init) (fun _ => true)) as (m & EM & _); [vm_compute; reflexivity|].
  exists f, text, m. split; [exact W|]. split; [|split; [|exact EM]].
  - unfold f_train in E. apply bind_inv in E. destruct E as (ts & _ & E). injection E as <-. reflexivity.
  - cbn [m_store]. rewrite ES. reflexivity.
Qed.
