(** Concrete runs for Props/Explorers.v. *)
From Coq Require Import ZArith Bool Ascii String Lia List.
From Verif Require Import Model.Base Model.Float Model.DatasetM Model.PolicyModelsM Model.ConfigM Model.RuntimeM
  Spec.ModelStringSpec Spec.ModelDocs Spec.ExplorerSpec Spec.RuntimeSpec Proofs.RuntimeExamples Proofs.RuntimePolicyExamples.
Import ListNotations.
Open Scope Z_scope.

Definition explore_with (E : string) : list item := [($"explore", Some ($E))].

Lemma explore_string name E : name = $"DecisionTree" \/ name = $"RandomForest" -> existsb (Ascii.eqb ",") ($E) = false -> exploring_string name (explore_with E) ($E).
Proof.
  intros N F. assert (K : forall k, k <> $"explore" -> first_value k (explore_with E) None).
  { intros k NE. apply fv_later; [congruence|constructor]. }
  assert (C : forall k, k <> $"explore" -> count_given k (explore_with E)).
  { intros k NE. exists 0. left. auto. }
  constructor; try (apply K; discriminate); try (apply C; discriminate); [exact N| | |left; exact (fv_here ($"explore") (Some ($E)) [])].
  - constructor; [|constructor]. unfold item_ok, free_of. cbn [fst snd]. repeat split.
    + cbn. intuition discriminate.
    + cbn. intuition discriminate.
    + intros I. assert (X : existsb (Ascii.eqb ",") ($E) = true) by (apply existsb_exists; exists ","%char; split; [exact I|reflexivity]). congruence.
  - intros i [<-|[]]. destruct N as [->| ->]; [apply doc_tree|apply doc_forest]; cbn; tauto.
Qed.

(** Three executions of a region with two policies. *)
Definition three : list op := execution 0 1 0 1 ++ execution 0 1 10 15 ++ execution 0 2 20 25.
Definition begun : list op := [start 0 1; give s0 1].

Definition first_b (m : op) (q : world -> bool) : bool :=
  match step example_platform (start_world plain []) m with
  | Ok (w1, GotRegion 0) => q w1
  | _ => false
  end.
Lemma first_true m q : first_b m q = true -> exists w1, step example_platform (start_world plain []) m = Ok (w1, GotRegion 0) /\ q w1 = true.
Proof.
  unfold first_b. destruct (step _ _ m) as [[w1 x]| | | |]; try discriminate. destruct x as [|n| |]; try discriminate. destruct n; [eauto|discriminate].
Qed.

Definition still_b (w : world) : bool := region_b w 0 (fun R => m_trainable (r_model R) && r_alive R).

Lemma explored_example m os expected : first_b m (fun w1 => match run example_platform w1 os with Ok (w', xs) => still_b w' && zs_eqb (answers os xs 0) expected | _ => false end) = true ->
  exists w1 w' xs R', step example_platform (start_world plain []) m = Ok (w1, GotRegion 0) /\ run example_platform w1 os = Ok (w', xs) /\
    nth_error (w_regions w') 0 = Some R' /\ m_trainable (r_model R') = true /\ r_alive R' = true /\ answers os xs 0 = expected.
Proof.
  intros H. apply first_true in H. destruct H as (w1 & S & H). destruct (run example_platform w1 os) as [[w' xs]| | | |] eqn:RU; try discriminate H.
  apply andb_prop in H. destruct H as [H K]. apply zs_eqb_true in K. apply region_b_true in H. destruct H as (R' & ER & H). apply andb_prop in H. destruct H as [T AL].
  exists w1, w', xs, R'. repeat (split; [assumption|]). exact K.
Qed.
