From Coq Require Import List ZArith Bool Ascii String.
From Flocq Require Import BinarySingleNaN.
From Verif Require Import Model.Base Model.Float Model.Decimal Model.DatasetM Model.RuntimeM Model.CreateDatasetM Spec.DatasetSpec Spec.RuntimeSpec Spec.CreateDatasetSpec.
From Coq Require Import List.
Import ListNotations.

Definition entry_of (r : nat) (i : Z) (fs : list Z) (p : Z) (x : Z) : entry :=
  mkEntry r (r, Sync) i (map (fun z => f32_of_Z z) fs) p (f64_of_Z x) true.

(** A region with one feature and a region with two. *)
Definition narrow : trace := mkTrace 0 ($"RoundRobin") ($"narrow") 1 [entry_of 0 0 [7] 0 3; entry_of 0 1 [7] 1 4]%Z.
Definition wide : trace := mkTrace 0 ($"RoundRobin") ($"wide") 2 [entry_of 1 0 [5; 6] 0 20; entry_of 1 1 [5; 8] 1 10]%Z.
(** A region one of whose executions was given one feature instead of two. *)
Definition lame : trace := mkTrace 0 ($"RoundRobin") ($"lame") 2 [entry_of 2 0 [5; 6] 0 20; entry_of 2 1 [5] 1 10]%Z.

Ltac a_field := split; [repeat (apply Forall_cons; [repeat split; discriminate|]); apply Forall_nil|reflexivity].
Lemma narrow_regular : regular narrow.
Proof. split; [a_field|a_field|]. repeat (apply Forall_cons; [split; [reflexivity|split; [repeat (apply Forall_cons; [reflexivity|]); apply Forall_nil|reflexivity]]|]). apply Forall_nil. Qed.
Lemma wide_regular : regular wide.
Proof. split; [a_field|a_field|]. repeat (apply Forall_cons; [split; [reflexivity|split; [repeat (apply Forall_cons; [reflexivity|]); apply Forall_nil|reflexivity]]|]). apply Forall_nil. Qed.
Lemma regular_readable t : regular t -> readable t.
Proof. intros [A B C]. split; [exact A|exact B|]. eapply Forall_impl; [|exact C]. cbn. intros e (E & _). rewrite E. apply le_n. Qed.
Lemma lame_readable : readable lame.
Proof. split; [a_field|a_field|]. repeat (apply Forall_cons; [cbn; repeat constructor|]). apply Forall_nil. Qed.
Lemma lame_spoiled : spoiled lame (entry_of 2 1 [5] 1 10)%Z.
Proof. left. cbn. repeat constructor. Qed.
Lemma pair_readable a b : regular a -> regular b -> Forall readable [a; b].
Proof. intros A B. repeat (apply Forall_cons; [apply regular_readable; assumption|]). apply Forall_nil. Qed.
