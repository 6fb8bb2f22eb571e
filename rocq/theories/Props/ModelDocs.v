(** Property C88: the models that documented model strings create. *)
From Coq Require Import ZArith Bool Ascii String List.
From Verif Require Import Model.Base Model.Float Model.PolicyModelsM Model.ConfigM Model.RuntimeM Spec.ModelStringSpec Spec.SafeClient Spec.ModelDocs
  Proofs.RuntimeExamples Proofs.ModelDocsFacts Proofs.ModelDocsExamples.
Import ListNotations.
Open Scope Z_scope.

(** Whatever happened before, a new region whose string (its own or APOLLO_POLICY_MODEL) names a model with documented
    parameters gets that model, with the parameters given and the documented defaults for the others. *)
Theorem C88_documented_models : forall P w nf nm np mt info init name items, usable_string name items ->
  model_string (w_config w) info = model_text name items -> 0 <= nf -> 1 <= np -> cf_persistent (w_config w) = 0 ->
  exists w' R, step P w (OpRegion nf nm np mt info [] init) = Ok (w', GotRegion (List.length (w_regions w))) /\
    nth_error (w_regions w') (List.length (w_regions w)) = Some R /\ promised nf np items name (r_model R) /\
    r_num_policies R = np /\ r_num_features R = nf /\ r_dataset R = [].
Proof. exact promised_region. Qed.
Print Assumptions C88_documented_models.

(** Examples of HOWTO.md lines 91, 157 and 152, the latter two with other values: depth -1 becomes 4294967295. *)
Example C88_nonvacuous :
  usable_string ($"DecisionTree") tree_items /\ model_text ($"DecisionTree") tree_items = $"DecisionTree,explore=RoundRobin,max_depth=4" /\
  usable_string ($"RandomForest") forest_items /\ model_text ($"RandomForest") forest_items = $"RandomForest,explore=Random,num_trees=20,max_depth=-1" /\
  usable_string ($"PolicyNet") net_items /\ model_text ($"PolicyNet") net_items = $"PolicyNet,lr=0.05,beta2=0.999" /\
  model_string (settings "RoundRobin" 0 0 0) ($"PolicyNet,lr=0.05,beta2=0.999") = $"PolicyNet,lr=0.05,beta2=0.999" /\
  cf_persistent (settings "RoundRobin" 0 0 0) = 0.
Proof. exact (conj tree_usable (conj eq_refl (conj forest_usable (conj eq_refl (conj net_usable (conj eq_refl (conj eq_refl eq_refl))))))). Qed.

(** A runtime started without APOLLO_POLICY_MODEL gives its regions the Static model with policy 0. *)
Theorem C88_default_model : forall P mpi env mkdir tr c files nf nm np mt init, apollo_instance mpi env mkdir tr = Ok c ->
  env ($"APOLLO_POLICY_MODEL") = None -> env ($"APOLLO_PERSISTENT_DATASETS") = None -> 0 <= nf -> 1 <= np ->
  exists w R, step P (start_world c files) (OpRegion nf nm np mt [] [] init) = Ok (w, GotRegion 0%nat) /\
    nth_error (w_regions w) 0 = Some R /\ r_model R = MStatic np 0.
Proof. exact default_region. Qed.
Print Assumptions C88_default_model.

Example C88_default_nonvacuous : exists c, apollo_instance false (fun _ => None) (fun _ => true) true = Ok c.
Proof. eexists. reflexivity. Qed.

(** A parameter that should be a number and is none makes the creation of the region throw. *)
Theorem C88_not_a_number : forall P w nf nm np mt info yaml init name items key s, In (name, key) number_parameters -> Forall item_ok items ->
  (forall i, In i items -> documented name (fst i)) -> model_string (w_config w) info = model_text name items ->
  first_value key items (Some s) -> no_number s -> step P w (OpRegion nf nm np mt info yaml init) = Throw.
Proof. exact rejected_region. Qed.
Print Assumptions C88_not_a_number.

Example C88_not_a_number_nonvacuous : In ($"DecisionTree", $"max_depth") number_parameters /\ Forall item_ok wrong_items /\
  (forall i, In i wrong_items -> documented ($"DecisionTree") (fst i)) /\
  first_value ($"max_depth") wrong_items (Some ($"deep")) /\ no_number ($"deep") /\
  model_text ($"DecisionTree") wrong_items = $"DecisionTree,explore=Random,max_depth=deep".
Proof. destruct wrong_string as (A & B & C & D). repeat (split; [first [assumption|cbn; tauto]|]). reflexivity. Qed.
