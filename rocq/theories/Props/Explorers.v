(** Property C125: what trees and forests explore with. *)
From Coq Require Import ZArith Bool Ascii String List.
From Verif Require Import Model.Base Model.Float Model.DatasetM Model.PolicyNetM Model.PolicyModelsM Model.ConfigM Model.RuntimeM
  Spec.ModelStringSpec Spec.ModelDocs Spec.SafeClient Spec.ExplorerSpec Spec.RuntimeSpec Proofs.RuntimeExamples Proofs.RuntimePolicyExamples
  Proofs.ExplorerFacts Proofs.ExplorerExamples.
Import ListNotations.
Open Scope Z_scope.

(** While a region is untrained, whatever is called on it and on others, its answers are the policies in turn - by
    default, with explore=RoundRobin, and also when it is told to explore with a tree or a forest. *)
Theorem C125_in_turn : forall P w nf nm np mt info init name items E w1 r os w' xs R',
  exploring_string name items E -> In E [$"RoundRobin"; $"DecisionTree"; $"RandomForest"] ->
  model_string (w_config w) info = model_text name items -> cf_persistent (w_config w) = 0 -> 1 <= np ->
  step P w (OpRegion nf nm np mt info [] init) = Ok (w1, GotRegion r) -> run P w1 os = Ok (w', xs) ->
  nth_error (w_regions w') r = Some R' -> m_trainable (r_model R') = true -> in_turn np (answers os xs r).
Proof. exact turns. Qed.
Print Assumptions C125_in_turn.

Example C125_in_turn_nonvacuous :
  exploring_string ($"DecisionTree") (explore_with "RandomForest") ($"RandomForest") /\
  model_string plain ($"DecisionTree,explore=RandomForest") = model_text ($"DecisionTree") (explore_with "RandomForest") /\ cf_persistent plain = 0 /\
  exists w1 w' xs R', step example_platform (start_world plain []) (make "r" 2 0 "DecisionTree,explore=RandomForest") = Ok (w1, GotRegion 0) /\
    run example_platform w1 three = Ok (w', xs) /\ nth_error (w_regions w') 0 = Some R' /\ m_trainable (r_model R') = true /\ r_alive R' = true /\
    answers three xs 0 = [0; 1; 0].
Proof.
  split; [apply explore_string; [left; reflexivity|reflexivity]|]. split; [reflexivity|]. split; [reflexivity|].
  apply explored_example. vm_compute. reflexivity.
Qed.

(** With explore=Static only policy 0 is ever tried. *)
Theorem C125_static_never_explores : forall P w nf nm np mt info init name items w1 r os w' xs R',
  exploring_string name items ($"Static") -> model_string (w_config w) info = model_text name items -> cf_persistent (w_config w) = 0 ->
  step P w (OpRegion nf nm np mt info [] init) = Ok (w1, GotRegion r) -> run P w1 os = Ok (w', xs) ->
  nth_error (w_regions w') r = Some R' -> m_trainable (r_model R') = true -> Forall (eq 0) (answers os xs r).
Proof. exact one_policy. Qed.
Print Assumptions C125_static_never_explores.

Example C125_static_nonvacuous :
  exploring_string ($"RandomForest") (explore_with "Static") ($"Static") /\
  model_string plain ($"RandomForest,explore=Static") = model_text ($"RandomForest") (explore_with "Static") /\
  exists w1 w' xs R', step example_platform (start_world plain []) (make "r" 2 0 "RandomForest,explore=Static") = Ok (w1, GotRegion 0) /\
    run example_platform w1 three = Ok (w', xs) /\ nth_error (w_regions w') 0 = Some R' /\ m_trainable (r_model R') = true /\ r_alive R' = true /\
    answers three xs 0 = [0; 0; 0].
Proof.
  split; [apply explore_string; [right; reflexivity|reflexivity]|]. split; [reflexivity|]. apply explored_example. vm_compute. reflexivity.
Qed.

(** With explore=Optimal or explore=DatasetMap the region is created, and the first call that asks it for a policy
    before it is trained stops the program. *)
Theorem C125_stops : forall P w nf nm np mt info init name items E w1 r os w' xs R',
  exploring_string name items E -> In E [$"Optimal"; $"DatasetMap"] ->
  model_string (w_config w) info = model_text name items -> cf_persistent (w_config w) = 0 ->
  step P w (OpRegion nf nm np mt info [] init) = Ok (w1, GotRegion r) -> run P w1 os = Ok (w', xs) ->
  nth_error (w_regions w') r = Some R' -> m_trainable (r_model R') = true ->
  answers os xs r = [] /\
  forall p c D, r_alive R' = true -> get_context w' p = Ok c -> nan_free (c_features c) = true -> step P w' (OpGetPolicy r (Some p) D) = Abort.
Proof. exact stops. Qed.
Print Assumptions C125_stops.

Example C125_stops_nonvacuous :
  exploring_string ($"DecisionTree") (explore_with "Optimal") ($"Optimal") /\
  model_string plain ($"DecisionTree,explore=Optimal") = model_text ($"DecisionTree") (explore_with "Optimal") /\
  exists w1 w' xs R', step example_platform (start_world plain []) (make "r" 2 0 "DecisionTree,explore=Optimal") = Ok (w1, GotRegion 0) /\
    run example_platform w1 begun = Ok (w', xs) /\ nth_error (w_regions w') 0 = Some R' /\ m_trainable (r_model R') = true /\ r_alive R' = true /\
    answers begun xs 0 = [].
Proof.
  split; [apply explore_string; [left; reflexivity|reflexivity]|]. split; [reflexivity|]. apply explored_example. vm_compute. reflexivity.
Qed.

(** With explore=PolicyNet policies are drawn with the network's random first weights: it is never trained. *)
Theorem C125_network_untrained : forall P w nf nm np mt info init name items w1 r os w' xs R',
  exploring_string name items ($"PolicyNet") -> model_string (w_config w) info = model_text name items -> cf_persistent (w_config w) = 0 ->
  0 <= nf -> 0 <= np ->
  step P w (OpRegion nf nm np mt info [] init) = Ok (w1, GotRegion r) -> run P w1 os = Ok (w', xs) ->
  nth_error (w_regions w') r = Some R' -> m_trainable (r_model R') = true ->
  exists N0 N, create_model P ($"PolicyNet") nf np [] init = Ok (MNet N0) /\ exploring (r_model R') (MNet N) /\ pn_net N = pn_net N0.
Proof. exact untrained_net. Qed.
Print Assumptions C125_network_untrained.

Example C125_network_nonvacuous :
  exploring_string ($"DecisionTree") (explore_with "PolicyNet") ($"PolicyNet") /\
  model_string plain ($"DecisionTree,explore=PolicyNet") = model_text ($"DecisionTree") (explore_with "PolicyNet") /\
  exists w1 w' xs R', step example_platform (start_world plain []) (make "r" 2 0 "DecisionTree,explore=PolicyNet") = Ok (w1, GotRegion 0) /\
    run example_platform w1 begun = Ok (w', xs) /\ nth_error (w_regions w') 0 = Some R' /\ m_trainable (r_model R') = true /\ r_alive R' = true /\
    answers begun xs 0 = [].
Proof.
  split; [apply explore_string; [left; reflexivity|reflexivity]|]. split; [reflexivity|]. apply explored_example. vm_compute. reflexivity.
Qed.

(** Any other text stops the program when the region is created. *)
Theorem C125_unknown : forall P w nf nm np mt info yaml init name items E, exploring_string name items E ->
  model_string (w_config w) info = model_text name items -> ~ In E known_models -> step P w (OpRegion nf nm np mt info yaml init) = Abort.
Proof. exact unknown_explorer. Qed.
Print Assumptions C125_unknown.

Example C125_unknown_nonvacuous :
  exploring_string ($"DecisionTree") (explore_with "Roundrobin") ($"Roundrobin") /\
  model_string plain ($"DecisionTree,explore=Roundrobin") = model_text ($"DecisionTree") (explore_with "Roundrobin") /\ ~ In ($"Roundrobin") known_models.
Proof.
  split; [apply explore_string; [left; reflexivity|reflexivity]|]. split; [reflexivity|]. cbn. intuition discriminate.
Qed.
