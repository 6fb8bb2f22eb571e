(** Concrete datasets for Props/Datasets.v. *)
From Coq Require Import List ZArith Bool Reals.
From Flocq Require Import Core BinarySingleNaN.
From Verif Require Import Model.Base Model.Float Model.DatasetM Spec.DatasetSpec Spec.DatasetClient
  Proofs.EmaBounds Proofs.DatasetFacts Proofs.InsertionSortFacts Proofs.PolicyModelsExamples.
Import ListNotations.
Open Scope Z_scope.

Definition ex_m (f p m : Z) : meas := ([f32_of_Z f], p, f64_of_Z m).

Definition some_b {A} (o : option A) : bool := match o with Some _ => true | None => false end.
Lemma some_b_true {A} (o : option A) : some_b o = true -> exists a, o = Some a.
Proof. destruct o; [eauto|discriminate]. Qed.
Lemma some_b_false {A} (o : option A) : negb (some_b o) = true -> o = None.
Proof. destruct o; [discriminate|reflexivity]. Qed.

Lemma averaged : exists d v, let h := [ex_m 1 0 8; ex_m 2 0 4; ex_m 1 0 4; ex_m 1 0 2] in
  Forall no_nan_features h /\ insert_all [] h = Ok d /\
  (forall m, In m (metrics_for [f32_of_Z 1] 0 h) -> halvable m) /\
  length (metrics_for [f32_of_Z 1] 0 h) = 3%nat /\ recorded [f32_of_Z 1] 0 (ds_to_vector d) = Some v.
Proof.
  destruct (ok_holds (insert_all [] [ex_m 1 0 8; ex_m 2 0 4; ex_m 1 0 4; ex_m 1 0 2])
    (fun d => some_b (recorded [f32_of_Z 1] 0 (ds_to_vector d)))) as (d & E & H); [vm_compute; reflexivity|].
  apply some_b_true in H. destruct H as [v H]. exists d, v. cbv zeta. split; [repeat constructor|]. split; [exact E|]. clear E.
  split; [|split; [vm_compute; reflexivity|exact H]]. clear H. intros m I. apply halvable_b_true.
  assert (A : forallb halvable_b (metrics_for [f32_of_Z 1] 0 [ex_m 1 0 8; ex_m 2 0 4; ex_m 1 0 4; ex_m 1 0 2]) = true) by (vm_compute; reflexivity).
  rewrite forallb_forall in A. apply A. exact I.
Qed.

Lemma to_merge : exists d ks s ks', reachable d ks /\ reachable s ks' /\ ds_size d = 2 /\ ds_size s = 2 /\
  recorded [f32_of_Z 1] 0 (ds_to_vector d) <> None /\ recorded [f32_of_Z 1] 0 (ds_to_vector s) <> None /\
  recorded [f32_of_Z 2] 1 (ds_to_vector d) <> None /\ recorded [f32_of_Z 2] 1 (ds_to_vector s) = None /\
  (forall f p m, In (f, p, m) (ds_to_vector d) -> halvable m).
Proof.
  destruct (ok_holds (insert_all [] [ex_m 1 0 8; ex_m 2 1 4])
    (fun d => (ds_size d =? 2) && some_b (recorded [f32_of_Z 1] 0 (ds_to_vector d)) && some_b (recorded [f32_of_Z 2] 1 (ds_to_vector d)) &&
       forallb (fun e => halvable_b (m_metric e)) (ds_to_vector d))) as (d & E & H); [vm_compute; reflexivity|].
  destruct (ok_holds (insert_all [] [ex_m 1 0 2; ex_m 2 0 4])
    (fun d => (ds_size d =? 2) && some_b (recorded [f32_of_Z 1] 0 (ds_to_vector d)) && negb (some_b (recorded [f32_of_Z 2] 1 (ds_to_vector d))))) as (s & E' & H'); [vm_compute; reflexivity|].
  apply insert_all_reachable with (ks := []) in E; [|constructor|repeat constructor]. destruct E as [ks R].
  apply insert_all_reachable with (ks := []) in E'; [|constructor|repeat constructor]. destruct E' as [ks' R'].
  apply andb_prop in H. destruct H as [H A4]. apply andb_prop in H. destruct H as [H A3]. apply andb_prop in H. destruct H as [A1 A2].
  apply andb_prop in H'. destruct H' as [H' B3]. apply andb_prop in H'. destruct H' as [B1 B2].
  exists d, ks, s, ks'. split; [exact R|]. split; [exact R'|]. clear R R'. split; [apply Z.eqb_eq; exact A1|]. split; [apply Z.eqb_eq; exact B1|].
  apply some_b_true in A2, A3, B2. destruct A2 as [? A2], A3 as [? A3], B2 as [? B2]. rewrite A2, A3, B2. split; [discriminate|]. split; [discriminate|]. split; [discriminate|].
  split; [apply some_b_false; exact B3|]. intros f p m I. apply halvable_b_true. rewrite forallb_forall in A4. apply (A4 _ I).
Qed.
