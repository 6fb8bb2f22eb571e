(** Settings under which no region trains its model. *)
From Coq Require Import ZArith.
From Verif Require Import Model.ConfigM Model.ForestM Model.PolicyModelsM.
Open Scope Z_scope.

(** APOLLO_REGION_MODEL=0, which goes with APOLLO_SINGLE_MODEL=1, or APOLLO_RETRAIN_ENABLE=1 in a build without OpenCV. *)
Definition blocked (c : config) : Prop := cf_region_model c = 0 \/ cf_retrain c <> 0.

(** Models whose training reads the first measurement: trees, and forests of at least one tree. *)
Definition needs_data (m : model) : Prop :=
  match m with MTree _ _ _ _ => True | MForest _ _ f _ => 0 < f_num_trees f | _ => False end.
