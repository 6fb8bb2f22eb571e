(** Data sets that show the limits of C03 and C05. *)
From Coq Require Import List ZArith Bool Sorted Reals.
From Flocq Require Import Core BinarySingleNaN.
From Verif Require Import Model.Base Model.Float Model.DatasetM Spec.DatasetSpec Spec.DatasetClient
  Proofs.DatasetFacts Proofs.DatasetProps Proofs.DatasetExamples.
Import ListNotations.
Open Scope Z_scope.


Lemma unrestricted_order_refuted :
  exists h d v m, Forall no_nan_features h /\ insert_all [] h = Ok d /\
    (forall x, In x (metrics_for [] 0 h) -> x = m) /\
    recorded [] 0 (ds_to_vector d) = Some v /\ Bltb v m = true /\ Bltb zero64 m = true.
Proof.
  set (eta := binary_normalize 53 1024 eq_refl eq_refl mode_NE 1 (-1074) false : f64).
  exists [([], 0, eta); ([], 0, eta)]. eexists. eexists. exists eta.
  split; [repeat constructor|]. split; [reflexivity|].
  split; [intros x [<-|[<-|[]]]; reflexivity|]. split; [reflexivity|]. vm_compute. auto.
Qed.

Lemma nan_metric_hides_better_policy :
  exists h d, Forall no_nan_features h /\ insert_all [] h = Ok d /\
    recorded [] 1 (ds_to_vector d) = Some one64 /\
    recorded [] 0 (ds_to_vector d) = Some B754_nan /\
    map (fun b => fst (snd b)) (snd (ds_find_min d [] [])) = [0].
Proof.
  exists [([], 0, B754_nan); ([], 1, one64)]. eexists.
  split; [repeat constructor|]. split; [reflexivity|]. repeat split.
Qed.
