(** Clients of a policy model used to state properties, and what the simple models promise. *)
From Coq Require Import List ZArith Bool Ascii String.
From Flocq Require Import BinarySingleNaN.
From Verif Require Import Model.Base Model.Float Model.DatasetM Model.PolicyModelsM Spec.DatasetSpec.
Import ListNotations.
Open Scope Z_scope.

(** A client calling getIndex once per features vector, in order; each call has its own random draws. *)
Fixpoint ask (P : platform) (m : model) (calls : list (draws * list f32)) : outcome (list Z * model) :=
  match calls with
  | [] => Ok ([], m)
  | (D, f) :: r =>
      let* (c, m') := m_get_index P D m f in
      let* (cs, m'') := ask P m' r in
      Ok (c :: cs, m'')
  end.

(** How often an answer occurs. *)
Definition times (c : Z) (answers : list Z) : Z := Z.of_nat (count_occ Z.eq_dec answers c).

(** The pieces with a comma between them. *)
Fixpoint comma_separated (pieces : list bytes) : bytes :=
  match pieces with
  | [] => []
  | [s] => s
  | s :: r => s ++ ","%char :: comma_separated r
  end.

(** [p] has the least metric recorded for the features [f], and is the lowest policy that has. *)
Definition best_policy_for (f : list f32) (v : list meas) (p : Z) : Prop :=
  exists g m, In (g, p, m) v /\ same_features f g = true /\
    forall g' p' m', In (g', p', m') v -> same_features f g' = true ->
      Bleb m m' = true /\ (Beqb m m' = true -> p <= p').
