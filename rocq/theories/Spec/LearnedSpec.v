(** What a trained model may answer. *)
From Coq Require Import ZArith List.
From Verif Require Import Model.Base Model.Float Model.DatasetM Model.ForestM Model.PolicyModelsM.
Import ListNotations.
Open Scope Z_scope.

(** The data set has a metric of policy [k] for some features. *)
Definition measured (d : dataset) (k : Z) : Prop := exists f m, In (f, k, m) (ds_to_vector d).

(** A tree that has been trained, or a forest that has been and has trees. *)
Definition learned (m : model) : Prop :=
  (exists n t e, m = MTree n false t e) \/ (exists n f e, m = MForest n false f e /\ f_trees f <> []).
