(** Properties C18, C19, C23 and C66: the policies the runtime returns. *)
From Coq Require Import ZArith Bool Ascii String List.
From Verif Require Import Model.Base Model.Float Model.DatasetM Model.TreeM Model.ForestM Model.ModelStringM Model.PolicyModelsM Model.ConfigM Model.RuntimeM
  Spec.DatasetSpec Spec.TreeSpec Spec.PolicyModelsSpec Spec.RuntimeSpec Spec.InsertionSort Proofs.InsertionSortFacts
  Proofs.RuntimeExamples Proofs.RuntimeRange Proofs.RuntimeLearn Proofs.RuntimePolicyExamples.
Import ListNotations.
Open Scope Z_scope.

(** ** C18 *)

Theorem C18_policies_in_range : forall P c files os w xs,
  run P (start_world c files) os = Ok (w, xs) -> cf_single_model c = 0 -> Forall own_context os -> Forall fair os ->
  (forall os1 o os2 w1 xs1, os = os1 ++ o :: os2 -> run P (start_world c files) os1 = Ok (w1, xs1) -> no_load w1 o) ->
  forall nf nm np mt info yaml init r, In (OpRegion nf nm np mt info yaml init, GotRegion r) (combine os xs) -> 1 <= np ->
    (forall p D k, In (OpGetPolicy r p D, GotPolicy k) (combine os xs) -> 0 <= k < np) /\
    (forall R n t f e x, nth_error (w_regions w) r = Some R -> r_model R = MForest n t f e -> f_predict f x <> Abort).
Proof. exact policies_in_range. Qed.
Print Assumptions C18_policies_in_range.

(** A region with two policies explores, is trained and exploits. *)
Example C18_nonvacuous : exists w xs,
  run example_platform (start_world plain []) (explore_calls ++ exploit_calls) = Ok (w, xs) /\ cf_single_model plain = 0 /\
  Forall own_context (explore_calls ++ exploit_calls) /\ Forall fair (explore_calls ++ exploit_calls) /\
  (forall os1 o os2 w1 xs1, explore_calls ++ exploit_calls = os1 ++ o :: os2 -> run example_platform (start_world plain []) os1 = Ok (w1, xs1) -> no_load w1 o) /\
  In (make "r" 2 0 "DecisionTree,explore=RoundRobin", GotRegion 0) (combine (explore_calls ++ exploit_calls) xs) /\
  answers (explore_calls ++ exploit_calls) xs 0 = [0; 1; 0; 1; 0; 0].
Proof.
  destruct all_run as (w & xs & E & A & B & C & D). exists w, xs. split; [exact E|]. split; [reflexivity|]. split; [exact A|]. split; [exact B|].
  split; [exact all_no_load|]. split; [exact C|exact D].
Qed.

(** ** C19 *)

(** A new tree or forest explores with the model named by explore, RoundRobin by default. *)
Theorem C19_starts_exploring : forall P name nf np ps init m, name = $"DecisionTree" \/ name = $"RandomForest" ->
  create_model P name nf np ps init = Ok m ->
  exists e, exploring m e /\ create_model P (match param_find ($"explore") ps with Some s => s | None => $"RoundRobin" end) nf np [] init = Ok e.
Proof. exact created_exploring. Qed.
Print Assumptions C19_starts_exploring.

(** From any state, as long as it is not trained, its answers are those of that model alone. *)
Theorem C19_explores : forall P os w w' xs r R R' e,
  run P w os = Ok (w', xs) -> nth_error (w_regions w) r = Some R -> exploring (r_model R) e ->
  nth_error (w_regions w') r = Some R' -> m_trainable (r_model R') = true ->
  exists e', exploring (r_model R') e' /\ ask P e (asked P w os r) = Ok (answers os xs r, e').
Proof. exact explores. Qed.
Print Assumptions C19_explores.

(** Region::train with data ends that. *)
Theorem C19_training_ends_exploration : forall P w r st collect force w' y R R' e,
  step P w (OpTrain r st collect force) = Ok (w', y) -> nth_error (w_regions w) r = Some R -> exploring (r_model R) e ->
  nth_error (w_regions w') r = Some R' -> 0 < ds_size (r_dataset R') -> exists predict, predicts (r_model R') predict.
Proof. exact training_ends. Qed.
Print Assumptions C19_training_ends_exploration.

(** From any state with a trained tree or forest, its answers are its predictions for the features alone; it does not
    change, and without persistent data sets nothing is recorded. *)
Theorem C19_exploits : forall P os w w' xs r R predict,
  run P w os = Ok (w', xs) -> nth_error (w_regions w) r = Some R -> predicts (r_model R) predict ->
  cf_single_model (w_config w) = 0 -> Forall unforced os ->
  map (fun c => predict (snd c)) (asked P w os r) = map Ok (answers os xs r) /\
  exists R', nth_error (w_regions w') r = Some R' /\ r_model R' = r_model R /\ (cf_persistent (w_config w) = 0 -> r_dataset R' = r_dataset R).
Proof. exact exploits. Qed.
Print Assumptions C19_exploits.

(** Four calls explore in turn; after training two calls exploit. *)
Example C19_nonvacuous : exists w xs w' xs' R R',
  run example_platform (start_world plain []) explore_calls = Ok (w, xs) /\
  run example_platform w exploit_calls = Ok (w', xs') /\
  nth_error (w_regions w) 0 = Some R /\ m_trainable (r_model R) = true /\ answers explore_calls xs 0 = [0; 1; 0; 1] /\
  nth_error (w_regions w') 0 = Some R' /\ (exists n t e, r_model R' = MTree n false t e) /\ answers exploit_calls xs' 0 = [0; 0].
Proof.
  destruct explore_run as (w & xs & w' & xs' & R & R' & A). exists w, xs, w', xs', R, R'. repeat (split; [apply A|]). apply A.
Qed.

(** ** C23 *)

(** Whatever was measured: a trained decision tree that was not loaded answers every later call with the same policy. *)
Theorem C23_one_answer : forall P c files os w xs r R n t e os2 w2 xs2, sorter_ok (p_sort P) ->
  run P (start_world c files) os = Ok (w, xs) ->
  (forall os1 o os2 w1 xs1, os = os1 ++ o :: os2 -> run P (start_world c files) os1 = Ok (w1, xs1) -> no_load w1 o) ->
  nth_error (w_regions w) r = Some R -> r_model R = MTree n false t e ->
  run P w os2 = Ok (w2, xs2) -> cf_single_model c = 0 -> Forall unforced os2 ->
  exists k, Forall (eq k) (answers os2 xs2 r).
Proof. exact one_answer. Qed.
Print Assumptions C23_one_answer.

(** Features 1 and 2 have different fastest policies; after training, with the default depth, policy 0 is returned for both. *)
Theorem C23_not_fastest : exists w xs w' xs' R R',
  run example_platform (start_world plain []) explore_calls = Ok (w, xs) /\
  run example_platform w exploit_calls = Ok (w', xs') /\
  nth_error (w_regions w) 0 = Some R /\ m_trainable (r_model R) = true /\ answers explore_calls xs 0 = [0; 1; 0; 1] /\
  nth_error (w_regions w') 0 = Some R' /\ (exists n t e, r_model R' = MTree n false t e) /\ answers exploit_calls xs' 0 = [0; 0] /\
  best_policy_for [f32_of_Z 1] (ds_to_vector (r_dataset R)) 0 /\ best_policy_for [f32_of_Z 2] (ds_to_vector (r_dataset R)) 1.
Proof. exact explore_run. Qed.
Print Assumptions C23_not_fastest.

(** The hypotheses of C23_one_answer. *)
Example C23_nonvacuous : sorter_ok (p_sort example_platform) /\ cf_single_model plain = 0 /\ Forall unforced later_calls /\
  (forall os1 o os2 w1 xs1, train_calls = os1 ++ o :: os2 -> run example_platform (start_world plain []) os1 = Ok (w1, xs1) -> no_load w1 o) /\
  exists w xs R n t e w2 xs2,
    run example_platform (start_world plain []) train_calls = Ok (w, xs) /\
    nth_error (w_regions w) 0 = Some R /\ r_model R = MTree n false t e /\ run example_platform w later_calls = Ok (w2, xs2) /\ answers later_calls xs2 0 = [0; 0].
Proof.
  split; [exact insertion_sort_ok|]. split; [reflexivity|]. split; [repeat constructor|]. split; [exact train_no_load|exact later_run].
Qed.

(** ** C66 *)

(** With a single model Apollo::train trains every registered region, trainable or not, on the data of all of them. *)
Theorem C66_trains_on_all : forall P c files os w xs st collect w' y,
  run P (start_world c files) os = Ok (w, xs) -> forallb explicit os = true ->
  cf_single_model c <> 0 -> step P w (OpTrainAll st collect) = Ok (w', y) ->
  exists d, all_data w d /\ forall i R, nth_error (w_regions w) i = Some R -> exists R', nth_error (w_regions w') i = Some R' /\ r_dataset R' = r_dataset R /\
    (In i (map snd (w_registry w)) -> m_train P (r_model R) d = Ok (r_model R')) /\ (~ In i (map snd (w_registry w)) -> r_model R' = r_model R).
Proof. exact single_trains. Qed.
Print Assumptions C66_trains_on_all.

(** A region with two policies then answers 2. *)
Theorem C66_out_of_range : exists w xs w' R,
  run example_platform (start_world shared []) (shared_calls "DecisionTree,explore=RoundRobin") = Ok (w, xs) /\
  nth_error (w_regions w) 0 = Some R /\ r_num_policies R = 2 /\ r_dataset R = [] /\
  step example_platform w (OpGetPolicy 0 (Some s0) fair_draws) = Ok (w', GotPolicy 2).
Proof. exact shared_tree_run. Qed.
Print Assumptions C66_out_of_range.

(** With a forest the assertion on the range of the answer fails. *)
Theorem C66_assertion_fails : exists w xs R,
  run example_platform (start_world shared []) (shared_calls "RandomForest,explore=RoundRobin") = Ok (w, xs) /\
  nth_error (w_regions w) 0 = Some R /\ r_num_policies R = 2 /\ r_dataset R = [] /\
  step example_platform w (OpGetPolicy 0 (Some s0) fair_draws) = Abort.
Proof. exact shared_forest_run. Qed.
Print Assumptions C66_assertion_fails.

(** The runs above make the call the first theorem is about. *)
Example C66_nonvacuous : cf_single_model shared <> 0 /\ forallb explicit (shared_calls "DecisionTree,explore=RoundRobin") = true /\
  In (OpTrainAll 0 true) (shared_calls "DecisionTree,explore=RoundRobin").
Proof. split; [discriminate|]. split; [reflexivity|]. apply in_or_app. right. apply in_or_app. right. apply in_or_app. right. apply in_or_app. right. left. reflexivity. Qed.
