(** Specification vocabulary for measurement datasets, independent of the map model. *)
From Coq Require Import List ZArith Bool.
From Flocq Require Import BinarySingleNaN.
From Verif Require Import Model.Base Model.Float.
Import ListNotations.
Open Scope Z_scope.

(** A measurement: features, policy, metric. *)
Definition meas := (list f32 * Z * f64)%type.
Definition m_features (m : meas) : list f32 := fst (fst m).
Definition m_policy (m : meas) : Z := snd (fst m).
Definition m_metric (m : meas) : f64 := snd m.

(** No NaN among the features. *)
Definition no_nan_features (m : meas) : Prop := Forall (fun x => is_nan x = false) (m_features m).

(** Two features vectors are the same for the program when they have the same length and are
    pairwise equal in the sense of C++ ==, so +0 and -0 are identified. *)
Fixpoint same_features (f g : list f32) : bool :=
  match f, g with
  | [], [] => true
  | x :: f', y :: g' => (Beqb x y && same_features f' g')%bool
  | _, _ => false
  end.

Definition same_key (f : list f32) (p : Z) (m : meas) : bool :=
  (same_features f (m_features m) && (p =? m_policy m))%bool.

(** Metrics measured for one key, in order. *)
Definition metrics_for (f : list f32) (p : Z) (h : list meas) : list f64 :=
  map m_metric (filter (same_key f p) h).

(** Half of each, added: IEEE binary64, nearest even. *)
Definition mean2 (a b : f64) : f64 :=
  let half := binary_normalize 53 1024 eq_refl eq_refl mode_NE 1 (-1) false in
  Bplus mode_NE (Bmult mode_NE half a) (Bmult mode_NE half b).

(** Exponential moving average of a list of metrics, oldest first. *)
Definition moving_average (l : list f64) : option f64 :=
  match l with
  | [] => None
  | m :: r => Some (fold_left mean2 r m)
  end.

(** The metric a listing of measurements gives for a key. *)
Definition recorded (f : list f32) (p : Z) (v : list meas) : option f64 :=
  match find (same_key f p) v with
  | Some m => Some (m_metric m)
  | None => None
  end.

(** Lexicographic order of features vectors: after a common part, either the first one ends,
    or it has the smaller element. *)
Definition features_before (f g : list f32) : Prop :=
  exists n,
    (n <= length f)%nat /\ (n < length g)%nat /\
    (forall i x y, (i < n)%nat -> nth_error f i = Some x -> nth_error g i = Some y -> Beqb x y = true) /\
    (n = length f \/
     exists x y, nth_error f n = Some x /\ nth_error g n = Some y /\ Bltb x y = true).

Definition meas_before (a b : meas) : Prop :=
  features_before (m_features a) (m_features b) \/
  (same_features (m_features a) (m_features b) = true /\ m_policy a < m_policy b).

(** A list of keys with later repetitions removed. *)
Fixpoint distinct_keys (ks : list (list f32 * Z)) : list (list f32 * Z) :=
  match ks with
  | [] => []
  | k :: r => k :: filter (fun k' => negb (same_features (fst k) (fst k') && (snd k =? snd k')))
                          (distinct_keys r)
  end.
