(** C133: what the aggregations of create-dataset.py keep of a region's measurements. *)
From Coq Require Import List ZArith Bool.
From Flocq Require Import BinarySingleNaN.
From Verif Require Import Model.Base Model.Float Model.AggregateM Spec.AggregateSpec Proofs.AggregateFacts Proofs.AggregateExamples.
From Coq Require Import List.
Import ListNotations.

(** mean: one entry for every features and policy measured, with the mean of their times. *)
Theorem C133_mean : forall mean l, numbers l ->
  one_per_policy (agg_by_mean mean l) /\ covers_policies l (agg_by_mean mean l) /\
  forall f p x, In (f, p, x) (agg_by_mean mean l) -> (exists y, In (f, p, y) l) /\ x = mean (times l f p).
Proof. exact agg_mean. Qed.
Example C133_mean_example : exists a b, agg_by_mean mean64 jittery = [a; b] /\
  point_b [f64_of_Z 5] 0 (f64_of_Z 5) a = true /\ point_b [f64_of_Z 5] 1 (f64_of_Z 3) b = true /\ numbers jittery.
Proof. eexists. eexists. split; [reflexivity|]. split; [reflexivity|]. split; [reflexivity|exact jittery_numbers]. Qed.
Print Assumptions C133_mean.

(** min: one entry for all features measured, the first of the fastest of their measurements. *)
Theorem C133_min : forall l, numbers l ->
  one_each (agg_by_min l) /\ covers l (agg_by_min l) /\
  forall f p x, In (f, p, x) (agg_by_min l) ->
    exists b a, l = b ++ (f, p, x) :: a /\
      (forall g q y, In (g, q, y) b -> same_features f g -> lt64 x y = true) /\
      (forall g q y, In (g, q, y) a -> same_features f g -> lt64 y x = false).
Proof. exact agg_min. Qed.
Example C133_min_example : exists a, agg_by_min jittery = [a] /\ point_b [f64_of_Z 5] 0 (f64_of_Z 1) a = true /\ numbers jittery.
Proof. eexists. split; [reflexivity|]. split; [reflexivity|exact jittery_numbers]. Qed.
Print Assumptions C133_min.

(** mean-min: one entry for all features measured, with the policy of the least mean, the lowest such policy, and its mean. *)
Theorem C133_mean_min : forall mean l, numbers l -> (forall f p, times l f p <> [] -> is_nan (mean (times l f p)) = false) ->
  one_each (agg_by_mean_min mean l) /\ covers l (agg_by_mean_min mean l) /\
  forall f p x, In (f, p, x) (agg_by_mean_min mean l) ->
    (exists q y, In (f, q, y) l) /\ times l f p <> [] /\ x = mean (times l f p) /\
    forall q, times l f q <> [] -> lt64 (mean (times l f q)) x = false /\ ((q < p)%Z -> lt64 x (mean (times l f q)) = true).
Proof. exact agg_mean_min. Qed.
Example C133_mean_min_example : exists a, agg_by_mean_min mean64 jittery = [a] /\ point_b [f64_of_Z 5] 1 (f64_of_Z 3) a = true /\
  numbers jittery /\ forall f p, times jittery f p <> [] -> is_nan (mean64 (times jittery f p)) = false.
Proof. eexists. split; [reflexivity|]. split; [reflexivity|]. split; [exact jittery_numbers|exact jittery_means]. Qed.
Print Assumptions C133_mean_min.

(** The entry of mean-min is the best entry of mean. *)
Theorem C133_agree : forall mean l, numbers l -> (forall f p, times l f p <> [] -> is_nan (mean (times l f p)) = false) ->
  forall f p x, In (f, p, x) (agg_by_mean_min mean l) ->
    (exists g, same_features f g /\ In (g, p, x) (agg_by_mean mean l)) /\
    forall g q y, In (g, q, y) (agg_by_mean mean l) -> same_features f g -> lt64 y x = false /\ ((q < p)%Z -> lt64 x y = true).
Proof. exact mean_agrees. Qed.
Example C133_agree_example : exists f p x, In (f, p, x) (agg_by_mean_min mean64 jittery) /\ p = 1%Z /\ same_b f [f64_of_Z 5] = true /\
  List.length (agg_by_mean mean64 jittery) = 2%nat /\ numbers jittery.
Proof. eexists. eexists. eexists. split; [left; reflexivity|]. split; [reflexivity|]. split; [reflexivity|]. split; [reflexivity|exact jittery_numbers]. Qed.
Print Assumptions C133_agree.

(** min and mean-min can choose different policies. *)
Theorem C133_differ : exists l f p q x y, numbers l /\ In (f, p, x) (agg_by_min l) /\ In (f, q, y) (agg_by_mean_min mean64 l) /\ p <> q.
Proof. exact min_differs. Qed.
Example C133_differ_example : map (fun m : point => snd (fst m)) (agg_by_min jittery) = [0%Z] /\ map (fun m : point => snd (fst m)) (agg_by_mean_min mean64 jittery) = [1%Z].
Proof. split; reflexivity. Qed.
Print Assumptions C133_differ.
