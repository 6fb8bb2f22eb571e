(** Clients of the dataset API used to state properties: sequences of calls. *)
From Coq Require Import List ZArith Bool.
From Verif Require Import Model.Base Model.Float Model.DatasetM Spec.DatasetSpec.
Import ListNotations.
Open Scope Z_scope.

(** A client calling Dataset::insert once per measurement, in order. *)
Fixpoint insert_all (d : dataset) (h : list meas) : outcome dataset :=
  match h with
  | [] => Ok d
  | m :: r => let* d' := ds_insert d (m_features m) (m_policy m) (m_metric m) in insert_all d' r
  end.

(** Datasets reachable through insert, merge and clear, with the list of keys inserted since
    the last clear. *)
Inductive reachable : dataset -> list (list f32 * Z) -> Prop :=
| reach_empty : reachable [] []
| reach_insert d ks m d' :
    reachable d ks -> no_nan_features m ->
    ds_insert d (m_features m) (m_policy m) (m_metric m) = Ok d' ->
    reachable d' (ks ++ [(m_features m, m_policy m)])
| reach_merge d ks s ks' d' :
    reachable d ks -> reachable s ks' -> ds_merge d s = Ok d' ->
    reachable d' (ks ++ ks')
| reach_clear d ks : reachable d ks -> reachable (ds_clear d) [].
