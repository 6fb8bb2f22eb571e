(** Trees and forests with any text after `explore=`: HOWTO.md lines 131-157 document RoundRobin and Random only. *)
From Coq Require Import ZArith Bool Ascii String List.
From Verif Require Import Model.Base Spec.ModelStringSpec Spec.ModelDocs.
Import ListNotations.
Open Scope Z_scope.

(** A string of documented parameters that asks to explore with [E], by default RoundRobin; nothing is loaded. *)
Record exploring_string (name : bytes) (items : list item) (E : bytes) : Prop := {
  es_name : name = $"DecisionTree" \/ name = $"RandomForest";
  es_items : Forall item_ok items;
  es_documented : forall i, In i items -> documented name (fst i);
  es_load : first_value ($"load") items None;
  es_load_dataset : first_value ($"load-dataset") items None;
  es_depth : count_given ($"max_depth") items;
  es_trees : count_given ($"num_trees") items;
  es_explore : first_value ($"explore") items (Some E) \/ first_value ($"explore") items None /\ E = $"RoundRobin"
}.

(** The names ModelFactory knows. *)
Definition known_models : list bytes :=
  [$"Static"; $"DatasetMap"; $"Random"; $"RoundRobin"; $"DecisionTree"; $"RandomForest"; $"PolicyNet"; $"Optimal"].

(** Every policy in its turn, from 0. *)
Definition in_turn (policies : Z) (answers : list Z) : Prop :=
  forall k a, nth_error answers k = Some a -> a = Z.of_nat k mod policies.
