(** Vocabulary for what a policy network learns from equal and from different times. *)
From Coq Require Import List ZArith Reals.
From Flocq Require Import Core BinarySingleNaN.
From Verif Require Import Model.Base Model.Float Model.DatasetM Model.NetM Model.PolicyNetM Spec.NetSpec Spec.PolicyNetSpec.
Import ListNotations.

(** Every time in the data trained with is [t]. *)
Definition timed {T} (t : R) (u : use T) : Prop :=
  match u with Ask _ _ => True | Learn d => Forall (fun e => B2R (snd e) = t) d end.

(** Two networks with the same weights and biases. *)
Definition same_parameters (N M : net R) : Prop :=
  l_w (layer1 N) = l_w (layer1 M) /\ l_b (layer1 N) = l_b (layer1 M) /\ l_w (layer2 N) = l_w (layer2 M) /\ l_b (layer2 N) = l_b (layer2 M) /\
  l_w (layer3 N) = l_w (layer3 M) /\ l_b (layer3 N) = l_b (layer3 M).

Local Open Scope R_scope.

(** The output layer after a policy [a] was paid [d] more than a policy [b] on the same inputs: the bias of [a] rises
    by Adam's first step on [d/4] and that of [b] falls as far, weights of [a] do not fall and those of [b] do not
    rise, and whatever belongs to another policy is as before. *)
Definition favours (hidden : nat) (lr d : R) (a b : nat) (before after : layer R) : Prop :=
  let bias L j := nth j (l_b L) 0 in
  let weight L j k := nth (j * hidden + k)%nat (l_w L) 0 in
  length (l_b after) = length (l_b before) /\ length (l_w after) = length (l_w before) /\
  bias after a = bias before a + first_step lr (d / 4) /\
  bias after b = bias before b - first_step lr (d / 4) /\
  (forall j, (j < length (l_b before))%nat -> j <> a -> j <> b -> bias after j = bias before j) /\
  (forall k, (k < hidden)%nat -> weight before a k <= weight after a k /\ weight after b k <= weight before b k) /\
  (forall j k, (j < length (l_b before))%nat -> (k < hidden)%nat -> j <> a -> j <> b -> weight after j k = weight before j k).
