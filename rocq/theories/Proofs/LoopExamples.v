(** Concrete runs for Props/Learned.v and Props/Loop.v. *)
From Coq Require Import ZArith Bool Ascii String Lia List.
From Flocq Require Import BinarySingleNaN.
From Verif Require Import Model.Base Model.Float Model.DatasetM Model.TreeM Model.ForestM Model.PolicyModelsM Model.ConfigM Model.RuntimeM Model.LoopM
  Spec.ModelStringSpec Spec.RuntimeSpec Spec.InsertionSort Proofs.InsertionSortFacts Proofs.TreeFacts Proofs.ModelStringFacts Proofs.RuntimeExamples
  Proofs.RuntimePolicyExamples Spec.LearnedSpec Spec.SafeClient Proofs.SafeExamples Spec.LoopSpec.
Import ListNotations.
Open Scope Z_scope.

(** ** A trained tree, a trained forest and a trained forest without trees *)

Definition forest_calls (trees : string) : list op :=
  make "r" 2 0 (append "RandomForest,explore=RoundRobin,num_trees=" trees) ::
    RuntimePolicyExamples.execution 0 1 0 1 ++ RuntimePolicyExamples.execution 0 1 10 15 ++ [OpTrain 0 0 true false; start 0 20; give s0 1].
Definition tree_calls : list op := train_calls ++ [start 0 40; give s0 2].
Definition ask : op := OpGetPolicy 0 (Some s0) fair_draws.

Definition forest_b (any : bool) (m : model) : bool :=
  match m with MForest _ false f _ => Bool.eqb any (match f_trees f with [] => false | _ => true end) | _ => false end.
Definition got_b (k : Z) (o : outcome (world * result)) : bool := match o with Ok (_, GotPolicy j) => j =? k | _ => false end.

Lemma got_b_true k o : got_b k o = true -> exists w, o = Ok (w, GotPolicy k).
Proof.
  unfold got_b. intros H. destruct o as [[w [| | |j]]| | | |]; try discriminate H. apply Z.eqb_eq in H. subst. eauto.
Qed.

Lemma learned_run os (q : model -> bool) k :
  match run example_platform (start_world RuntimePolicyExamples.plain []) os with
  | Ok a => region_b (fst a) 0 (fun R => q (r_model R)) && got_b k (step example_platform (fst a) ask) | _ => false end = true ->
  exists w xs R w', run example_platform (start_world RuntimePolicyExamples.plain []) os = Ok (w, xs) /\
    nth_error (w_regions w) 0 = Some R /\ q (r_model R) = true /\ step example_platform w ask = Ok (w', GotPolicy k).
Proof.
  intros H. destruct (run_holds example_platform (start_world RuntimePolicyExamples.plain []) os
    (fun a => region_b (fst a) 0 (fun R => q (r_model R)) && got_b k (step example_platform (fst a) ask)) H) as (w & xs & E & K).
  cbn [fst] in K. apply andb_prop in K. destruct K as [K G]. apply region_b_true in K. destruct K as (R & ER & Q). apply got_b_true in G. destruct G as (w' & G).
  exists w, xs, R, w'. auto.
Qed.

Lemma tree_learned : exists w xs R w', run example_platform (start_world RuntimePolicyExamples.plain []) tree_calls = Ok (w, xs) /\
  nth_error (w_regions w) 0 = Some R /\ learned (r_model R) /\ step example_platform w ask = Ok (w', GotPolicy 0).
Proof.
  destruct (learned_run tree_calls trained_b 0) as (w & xs & R & w' & E & ER & Q & S); [vm_compute; reflexivity|].
  exists w, xs, R, w'. split; [exact E|]. split; [exact ER|]. split; [|exact S]. clear E S. left. unfold trained_b in Q. destruct (r_model R) as [| | | | |n [|] t e| |]; try discriminate Q. eauto.
Qed.

Lemma forest_learned : exists w xs R w', run example_platform (start_world RuntimePolicyExamples.plain []) (forest_calls "3") = Ok (w, xs) /\
  nth_error (w_regions w) 0 = Some R /\ learned (r_model R) /\ step example_platform w ask = Ok (w', GotPolicy 0).
Proof.
  destruct (learned_run (forest_calls "3") (forest_b true) 0) as (w & xs & R & w' & E & ER & Q & S); [vm_compute; reflexivity|].
  exists w, xs, R, w'. split; [exact E|]. split; [exact ER|]. split; [|exact S]. clear E S. right. unfold forest_b in Q. destruct (r_model R) as [| | | | | |n [|] f e|]; try discriminate Q.
  exists n, f, e. split; [reflexivity|]. destruct (f_trees f); [discriminate Q|discriminate].
Qed.

Lemma treeless_run : exists w xs R w', run example_platform (start_world RuntimePolicyExamples.plain []) (forest_calls "0") = Ok (w, xs) /\
  nth_error (w_regions w) 0 = Some R /\ (exists n f e, r_model R = MForest n false f e /\ f_trees f = []) /\ step example_platform w ask = Ok (w', GotPolicy 0).
Proof.
  destruct (learned_run (forest_calls "0") (forest_b false) 0) as (w & xs & R & w' & E & ER & Q & S); [vm_compute; reflexivity|].
  exists w, xs, R, w'. split; [exact E|]. split; [exact ER|]. split; [|exact S]. clear E S. unfold forest_b in Q. destruct (r_model R) as [| | | | | |n [|] f e|]; try discriminate Q.
  exists n, f, e. split; [reflexivity|]. destruct (f_trees f); [reflexivity|discriminate Q].
Qed.

Lemma tree_no_load : forall os1 o os2 w1 xs1, tree_calls = os1 ++ o :: os2 -> run example_platform (start_world RuntimePolicyExamples.plain []) os1 = Ok (w1, xs1) -> no_load w1 o.
Proof.
  change tree_calls with (make "r" 2 0 "DecisionTree,explore=RoundRobin" :: tl tree_calls).
  apply no_load_run; [|reflexivity]. split; [reflexivity|]. split; [left; reflexivity|]. intros name ps E.
  assert (X : name = $"DecisionTree" /\ ps = [($"explore", $"RoundRobin")]) by (vm_compute in E; inversion E; split; reflexivity).
  destruct X as [-> ->]. split; [discriminate|]. split; [discriminate|]. split; reflexivity.
Qed.

(** ** The loop *)

Definition loop_settings : config := settings "DecisionTree,explore=RoundRobin,max_depth=4" 0 0 0.

Lemma loop_plain : plain loop_settings.
Proof. constructor; try reflexivity. discriminate. Qed.

Lemma loop_string : learning_string (cf_policy_model loop_settings).
Proof.
  exists ($"DecisionTree"), [($"explore", Some ($"RoundRobin")); ($"max_depth", Some ($"4"))]. split; [reflexivity|]. split; [|split; [|split]].
  - constructor.
    + cbn. auto.
    + repeat (apply Forall_cons; [split; [free|split; [free|cbn [snd]; free]]|]). constructor.
    + intros i Ii. cbn in Ii. destruct Ii as [<-|[<-|[]]]; apply doc_tree; cbn; auto.
    + apply value_in_first. reflexivity.
    + apply value_in_first. reflexivity.
    + values. exact I.
    + values. cbn [int_value]. exists 4. split; [reflexivity|lia].
    + values. exact I.
    + intros e H. apply value_in_first in H. vm_compute in H. inversion H; subst. cbn. auto.
    + intros k v Ik H. apply value_in_first in H. cbn in Ik. destruct Ik as [<-|[<-|[<-|[<-|[<-|[]]]]]]; vm_compute in H; subst; exact I.
  - left. reflexivity.
  - right. apply value_in_first. reflexivity.
  - apply quiet_string. vm_compute. reflexivity.
Qed.

Definition loop_sizes : list f32 := [f32_of_Z 1000; f32_of_Z 2000; f32_of_Z 1000].
Lemma loop_sizes_ok : Forall (loop_feature loop_settings) loop_sizes.
Proof. repeat (apply Forall_cons; [split; [vm_compute; reflexivity|intros [X|X]; exfalso; apply X; reflexivity]|]). constructor. Qed.

(** The same executions without the calls of train: the explorer goes through the policies. *)
Definition no_train (o : op) : bool := match o with OpTrainAll _ _ => false | _ => true end.
Definition documented_calls : list op :=
  documented_loop (fun i => (10 * i, 0)) (fun i => (10 * i + 3, 0)) (fun _ => fair_draws) no_init ($"kernel") 3 loop_sizes.

Lemma untrained_loop : exists w ys, run example_platform (start_world loop_settings []) (filter no_train documented_calls) = Ok (w, ys) /\
  answers (filter no_train documented_calls) ys 0 = [0; 1; 2].
Proof.
  destruct (run_holds example_platform (start_world loop_settings []) (filter no_train documented_calls)
    (fun s => zs_eqb (answers (filter no_train documented_calls) (snd s) 0) [0; 1; 2])) as (w & xs & E & H); [vm_compute; reflexivity|].
  exists w, xs. split; [exact E|]. clear E. apply zs_eqb_true. exact H.
Qed.
