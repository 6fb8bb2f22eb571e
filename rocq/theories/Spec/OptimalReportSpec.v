(** Executions that follow a file of policies. *)
From Coq Require Import List ZArith Ascii String.
From Verif Require Import Model.Base Model.Decimal Spec.PolicyModelsSpec.
Import ListNotations.

(** A text of policies with commas between them has [p] at place [i], counted from 0. *)
Definition file_policy (text : bytes) (i p : Z) : Prop :=
  (0 <= i)%Z /\ exists ps, text = comma_separated (map print_Z ps) /\ nth_error ps (Z.to_nat i) = Some p.
