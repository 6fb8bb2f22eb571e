(** Properties C14 and C15: model-selection strings. *)
From Coq Require Import List ZArith Bool Ascii String.
From Verif Require Import Model.Base Model.ModelStringM Spec.ModelStringSpec Proofs.ModelStringFacts.
Import ListNotations.

Theorem C14_string_parses_to_name_and_parameters : forall name items,
  free_of "," name -> Forall item_ok items -> (forall i, In i items -> documented name (fst i)) ->
  exists m, parse_policy_model (model_text name items) = Ok (name, m) /\
    forall k o, first_value k items o <-> param_find k m = o.
Proof. exact parse_gives_items. Qed.
Print Assumptions C14_string_parses_to_name_and_parameters.

Example C14_nonvacuous :
  let items := [($"max_depth", Some ($"4")); ($"load", None); ($"max_depth", Some ($"a=b"))] in
  free_of "," ($"DecisionTree") /\ Forall item_ok items /\
  (forall i, In i items -> documented ($"DecisionTree") (fst i)) /\
  model_text ($"DecisionTree") items = $"DecisionTree,max_depth=4,load,max_depth=a=b" /\
  exists m, parse_policy_model ($"DecisionTree,max_depth=4,load,max_depth=a=b") = Ok ($"DecisionTree", m) /\
    param_find ($"max_depth") m = Some ($"4") /\ param_find ($"load") m = Some [] /\
    param_find ($"explore") m = None.
Proof.
  cbv zeta. repeat split.
  - cbv. intuition discriminate.
  - repeat constructor; cbv; intuition discriminate.
  - intros i [<-|[<-|[<-|[]]]]; apply doc_tree; cbn; auto.
  - eexists. repeat split; reflexivity.
Qed.

Theorem C15_accepted_iff_documented : forall s, In ","%char s ->
  exists name items, s = model_text name items /\ free_of "," name /\ Forall item_ok items /\ items <> [] /\
    ((exists m, parse_policy_model s = Ok (name, m)) /\
       (forall i, In i items -> documented name (fst i)) \/
     parse_policy_model s = Abort /\
       ~ (forall i, In i items -> documented name (fst i))).
Proof. exact accepted_string. Qed.
Print Assumptions C15_accepted_iff_documented.

(** A name and items determine the string and the verdict. *)
Theorem C15_items_accepted_iff_documented : forall name items,
  free_of "," name -> Forall item_ok items -> items <> [] ->
  ((exists m, parse_policy_model (model_text name items) = Ok (name, m)) /\
     (forall i, In i items -> documented name (fst i))) \/
  (parse_policy_model (model_text name items) = Abort /\
     ~ (forall i, In i items -> documented name (fst i))).
Proof. exact accepted_iff. Qed.
Print Assumptions C15_items_accepted_iff_documented.

(** One string accepted and one rejected: the latter is the spelling documented in HOWTO.md line 148. *)
Example C15_nonvacuous :
  (exists m, parse_policy_model ($"RandomForest,num_trees=4") = Ok ($"RandomForest", m)) /\
  parse_policy_model ($"RandomForest,num_tress=4") = Abort /\
  parse_policy_model ($"RoundRobin,x") = Abort.
Proof. repeat split; try reflexivity. eexists. reflexivity. Qed.
