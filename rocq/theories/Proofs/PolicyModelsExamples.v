(** Concrete cases for Props/PolicyModels.v. *)
From Coq Require Import List ZArith Bool Ascii String Lia.
From Flocq Require Import BinarySingleNaN.
From Verif Require Import Model.Base Model.Float Model.Decimal Model.DatasetM Model.PolicyModelsM
  Spec.DatasetSpec Spec.DatasetClient Spec.ModelStringSpec Spec.PolicyModelsSpec Proofs.InsertionSortFacts.
Import ListNotations.
Open Scope Z_scope.

Lemma insert_all_reachable h : forall d ks d', reachable d ks -> Forall no_nan_features h -> insert_all d h = Ok d' ->
  exists ks', reachable d' ks'.
Proof.
  induction h as [|m r IH]; intros d ks d' R F E; cbn in E.
  - injection E as <-. eauto.
  - inversion F; subst. destruct (ds_insert d (m_features m) (m_policy m) (m_metric m)) as [d1| | | |] eqn:I; try discriminate.
    cbn [bind] in E. eapply IH; [|eassumption|exact E]. eapply reach_insert; eassumption.
Qed.

Lemma optimal_example : comma_separated [$"3"; $" 1"; $"-2x"] = $"3, 1,-2x" /\
  Forall2 (fun s p => free_of "," s /\ exists rest, stoi s = Ok (p, rest)) [$"3"; $" 1"; $"-2x"] [3; 1; -2].
Proof.
  split; [reflexivity|].
  repeat constructor; try (eexists; reflexivity);
    intros I; cbn in I; repeat destruct I as [I|I]; try discriminate; contradiction.
Qed.

Definition map_meas (f p m : Z) : meas := ([f32_of_Z f], p, f64_of_Z m).
Definition map_history : list meas := [map_meas 1 0 8; map_meas 1 2 4; map_meas 1 1 4; map_meas 5 3 1].
Definition map_data : dataset := match insert_all [] map_history with Ok d => d | _ => [] end.

Lemma map_data_ok : insert_all [] map_history = Ok map_data.
Proof. reflexivity. Qed.

Lemma dataset_map_example : exists d ks, reachable d ks /\
  (forall f p m, In (f, p, m) (ds_to_vector d) -> is_nan m = false) /\
  forall P D, let answer x := (let* m := m_train P (MDatasetMap 4 []) d in
                               let* (p, _) := m_get_index P D m [f32_of_Z x] in Ok p) in
    answer 1 = Ok 1 /\ answer 5 = Ok 3 /\ answer 7 = Abort.
Proof.
  exists map_data.
  destruct (insert_all_reachable map_history [] [] map_data reach_empty) as (ks & R).
  - repeat constructor.
  - exact map_data_ok.
  - exists ks. split; [exact R|]. split.
    + assert (A : forallb (fun e => negb (is_nan (snd e))) (ds_to_vector map_data) = true) by (vm_compute; reflexivity).
      intros f p m I. rewrite forallb_forall in A. specialize (A _ I). cbn in A. now destruct (is_nan m).
    + intros P D. cbv zeta. split; [|split].
      * apply ok_is. vm_compute. reflexivity.
      * apply ok_is. vm_compute. reflexivity.
      * vm_compute. reflexivity.
Qed.
