From Coq Require Import List ZArith Bool.
From Flocq Require Import BinarySingleNaN.
From Verif Require Import Model.Base Model.Float Model.AggregateM Spec.AggregateSpec.
From Coq Require Import List.
Import ListNotations.

(** Policy 0 takes 1 and 9, policy 1 takes 3 and 3. *)
Definition jittery : list point :=
  [([f64_of_Z 5], 0, f64_of_Z 1); ([f64_of_Z 5], 1, f64_of_Z 3); ([f64_of_Z 5], 0, f64_of_Z 9); ([f64_of_Z 5], 1, f64_of_Z 3)]%Z.

Lemma jittery_numbers : numbers jittery.
Proof. repeat (apply Forall_cons; [split; [apply Forall_cons; [reflexivity|apply Forall_nil]|reflexivity]|]). apply Forall_nil. Qed.

Definition point_b (f : list f64) (p : Z) (x : f64) (m : point) : bool := let '(g, q, y) := m in same_b f g && Z.eqb p q && eq64 x y.

(** Means of doubles that are not too large are numbers; here those of the data. *)
Lemma jittery_means f p : times jittery f p <> [] -> is_nan (mean64 (times jittery f p)) = false.
Proof.
  unfold times, jittery. cbn [filter]. destruct (same_b f [f64_of_Z 5]); cbn [andb].
  - destruct (Z.eqb_spec p 0) as [->|A]; [intros _; reflexivity|]. destruct (Z.eqb_spec p 1) as [->|B]; [intros _; reflexivity|].
    intros H. contradiction H. reflexivity.
  - intros H. contradiction H. reflexivity.
Qed.

Theorem min_differs : exists l f p q x y, numbers l /\ In (f, p, x) (agg_by_min l) /\ In (f, q, y) (agg_by_mean_min mean64 l) /\ p <> q.
Proof.
  exists jittery, [f64_of_Z 5], 0%Z, 1%Z, (f64_of_Z 1), (mean64 [f64_of_Z 3; f64_of_Z 3]).
  split; [exact jittery_numbers|]. split; [left; reflexivity|]. split; [left; reflexivity|discriminate].
Qed.
