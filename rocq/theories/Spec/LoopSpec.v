(** The loop of HOWTO.md lines 66-90: the models it is meant for and the features it may have. *)
From Coq Require Import ZArith Bool Ascii String List.
From Flocq Require Import BinarySingleNaN.
From Verif Require Import Model.Base Model.Float Model.ConfigM Spec.ModelStringSpec Spec.RuntimeSpec Spec.SafeClient.
Import ListNotations.
Open Scope Z_scope.

(** A tree or forest exploring with RoundRobin, as in the example of HOWTO.md line 93. *)
Definition learning_string (s : bytes) : Prop :=
  exists name items, s = model_text name items /\ model_ok name items /\ (name = $"DecisionTree" \/ name = $"RandomForest") /\
    (first_value ($"explore") items None \/ first_value ($"explore") items (Some ($"RoundRobin"))) /\ ~ mentions_net s.

(** A number, which fits in an int when it is traced. *)
Definition loop_feature (c : config) (x : f32) : Prop :=
  is_nan x = false /\ (cf_trace_policy c <> 0 \/ cf_trace_best c <> 0 -> ~ unprintable x).
