(** Concrete runs for Props/Traces.v. *)
From Coq Require Import ZArith Bool Ascii String Lia List.
From Flocq Require Import BinarySingleNaN.
From Verif Require Import Model.Base Model.Float Model.Decimal Model.DatasetM Model.PolicyModelsM Model.ConfigM Model.RuntimeM
  Spec.StartupSpec Spec.RuntimeSpec Spec.TraceSpec Proofs.ModelStringFacts Proofs.BestPolicy Proofs.RuntimeExamples.
Import ListNotations.
Open Scope Z_scope.

(** Both traces on. *)
Definition traced (global_period : Z) : config :=
  mkConfig ($"Static,policy=0") 0 1 0 1 global_period 0 1 0 0 0 1 0 one32 half32 0 0 0 ($".apollo") ($".apollo/datasets") ($".apollo/traces") ($".apollo/models").

(** Two policies measured with features 3 and one with 4, in two regions. *)
Definition two_regions : list op :=
  [make "r" 2 0 "DecisionTree,explore=RoundRobin"; make "q" 2 0 "DecisionTree,explore=RoundRobin"; start 0 10; give s0 3; ask_policy s0; finish s0 12;
   start 0 20; give s0 3; ask_policy s0; finish s0 21; start 0 30; give s0 4; ask_policy s0; finish s0 35; start 1 40; give s1 7; ask_policy s1].

Definition holds_b (path : string) (text : bytes) (w : world) : bool :=
  match file_find ($path) (w_files w) with Some s => bytes_eqb s text | None => false end.
Definition numbers_b (w : world) (r : nat) : bool :=
  match nth_error (w_regions w) r with Some R => (0 <? ds_size (r_dataset R)) && forallb (fun e => negb (is_nan (snd e))) (r_dataset R) | None => false end.

Definition policies_text : bytes :=
  $"Rank 0 region r model DecisionTree features [ 3, ] policy 0" ++ [nl] ++ $"Rank 0 region r model DecisionTree features [ 3, ] policy 1" ++ [nl] ++
  $"Rank 0 region r model DecisionTree features [ 4, ] policy 0" ++ [nl] ++ $"Rank 0 region q model DecisionTree features [ 7, ] policy 0" ++ [nl].
Definition best_text : bytes :=
  $"=== Rank 0 BEST POLICIES Region r ===" ++ [nl] ++ $"[ 3, ] P:1 T: 1" ++ [nl] ++ $"[ 4, ] P:0 T: 5" ++ [nl].
Definition other_text : bytes := $"=== Rank 0 BEST POLICIES Region q ===" ++ [nl] ++ $"[ 7, ] P:0 T: 2" ++ [nl].

Definition end_other : op := OpEnd 1 (Some s1) (42, 0) None.

Lemma holds_b_true path text w : holds_b path text w = true -> file_find ($path) (w_files w) = Some text.
Proof. unfold holds_b. destruct (file_find _ _); [|discriminate]. intros H. apply bytes_eqb_eq in H. congruence. Qed.

Lemma two_traced : exists w xs, run example_platform (start_world (traced 0) []) two_regions = Ok (w, xs) /\ contents (policy_file 0) (w_files w) = policies_text.
Proof.
  destruct (run_holds example_platform (start_world (traced 0) []) two_regions (fun a => holds_b "rank-0-policies.txt" policies_text (fst a))) as (w & xs & E & H); [vm_compute; reflexivity|].
  exists w, xs. split; [exact E|]. cbn [fst] in H. clear E. apply holds_b_true in H. unfold contents. change (policy_file 0) with ($"rank-0-policies.txt"). rewrite H. reflexivity.
Qed.

(** No metric is no number. *)
Definition all_numbers (w : world) (r : nat) : Prop :=
  exists R, nth_error (w_regions w) r = Some R /\ 0 < ds_size (r_dataset R) /\ forall f p m, In (f, p, m) (ds_to_vector (r_dataset R)) -> is_nan m = false.
Lemma numbers_b_true w r : numbers_b w r = true -> all_numbers w r.
Proof.
  unfold numbers_b. destruct (nth_error (w_regions w) r) as [R|] eqn:E; [|discriminate]. intros H. apply andb_prop in H. destruct H as [S N]. apply Z.ltb_lt in S. exists R. split; [exact E|]. split; [exact S|].
  intros f p m I. apply (proj1 (In_to_vector _ _ _ _)) in I. rewrite forallb_forall in N. specialize (N _ I). cbn [snd] in N. apply negb_true_iff in N. exact N.
Qed.

Lemma two_step c o (q : world -> world -> bool) :
  match run example_platform (start_world c []) two_regions with Ok (w, _) => match step example_platform w o with Ok (w', _) => q w w' | _ => false end | _ => false end = true ->
  exists w xs w' y, run example_platform (start_world c []) two_regions = Ok (w, xs) /\ step example_platform w o = Ok (w', y) /\ q w w' = true.
Proof.
  intros H. destruct (run example_platform (start_world c []) two_regions) as [[w xs]| | | |]; try discriminate H. destruct (step example_platform w o) as [[w' y]| | | |] eqn:E; try discriminate H. exists w, xs, w', y. auto.
Qed.

Lemma two_train : exists w xs w' y, run example_platform (start_world (traced 0) []) two_regions = Ok (w, xs) /\
  step example_platform w (OpTrain 0 9 true false) = Ok (w', y) /\ trainable_b w 0 = true /\ all_numbers w' 0 /\
  file_find (best_file 9 0 ($"r")) (w_files w') = Some best_text.
Proof.
  destruct (two_step (traced 0) (OpTrain 0 9 true false) (fun w w' => trainable_b w 0 && numbers_b w' 0 && holds_b "step-9-rank-0-r-best_policies.txt" best_text w')) as (w & xs & w' & y & E & S & H); [vm_compute; reflexivity|].
  exists w, xs, w', y. split; [exact E|]. split; [exact S|]. clear E S. apply andb_prop in H. destruct H as [H K]. apply andb_prop in H. destruct H as [H N].
  split; [exact H|]. split; [apply numbers_b_true; exact N|]. apply holds_b_true in K. exact K.
Qed.

Lemma two_train_all : exists w xs w' y, run example_platform (start_world (traced 0) []) two_regions = Ok (w, xs) /\
  step example_platform w (OpTrainAll 9 false) = Ok (w', y) /\ trainable_b w 0 = true /\ all_numbers w' 0 /\
  file_find (best_file 9 0 ($"r")) (w_files w') = Some best_text.
Proof.
  destruct (two_step (traced 0) (OpTrainAll 9 false) (fun w w' => trainable_b w 0 && numbers_b w' 0 && holds_b "step-9-rank-0-r-best_policies.txt" best_text w')) as (w & xs & w' & y & E & S & H); [vm_compute; reflexivity|].
  exists w, xs, w', y. split; [exact E|]. split; [exact S|]. clear E S. apply andb_prop in H. destruct H as [H K]. apply andb_prop in H. destruct H as [H N].
  split; [exact H|]. split; [apply numbers_b_true; exact N|]. apply holds_b_true in K. exact K.
Qed.

Lemma two_end : exists w xs w' y, run example_platform (start_world (traced 4) []) two_regions = Ok (w, xs) /\ forallb explicit two_regions = true /\
  step example_platform w end_other = Ok (w', y) /\ global_due (w_config w) ((w_executions w + 1) mod 2 ^ 64) /\ trainable_b w 0 = true /\ trainable_b w 1 = true /\ all_numbers w' 0 /\
  file_find (best_file 4 0 ($"r")) (w_files w') = Some best_text /\ file_find (best_file 4 0 ($"q")) (w_files w') = Some other_text.
Proof.
  destruct (two_step (traced 4) end_other (fun w w' => (cf_global_period (w_config w) =? 4) && (w_executions w =? 3) && trainable_b w 0 && trainable_b w 1 && numbers_b w' 0 &&
    holds_b "step-4-rank-0-r-best_policies.txt" best_text w' && holds_b "step-4-rank-0-q-best_policies.txt" other_text w')) as (w & xs & w' & y & E & S & H); [vm_compute; reflexivity|].
  exists w, xs, w', y. split; [exact E|]. split; [reflexivity|]. split; [exact S|]. clear E S. do 6 (apply andb_prop in H; let K := fresh "K" in destruct H as [H K]).
  apply Z.eqb_eq in H, K4. rewrite K4. split; [split; [rewrite H; discriminate|rewrite H; exists 1; reflexivity]|].
  apply holds_b_true in K, K0. apply numbers_b_true in K1. auto 7.
Qed.
