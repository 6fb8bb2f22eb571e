(** The calls that can give a region's synchronous execution features, and those that end it. *)
From Coq Require Import ZArith Bool List.
From Verif Require Import Model.Base Model.RuntimeM Spec.RuntimeSpec.

(** The call neither begins an execution of the region nor sets a feature on the region's synchronous context. *)
Definition gives_nothing (r : nat) (o : op) : Prop :=
  begins o <> Some r /\ match o with OpSetFeature _ (Some q) _ => ctx_eqb q (r, Sync) = false | _ => True end.

(** The call ends the region's synchronous execution: Region::end(context) and Region::end(context, metric). *)
Definition ends_sync (r : nat) (o : op) : Prop :=
  match o with
  | OpEnd r' (Some p) _ _ | OpEndMetric r' (Some p) _ => r' = r /\ p = (r, Sync)
  | _ => False
  end.
