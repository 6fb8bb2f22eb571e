(** What aggregated data sets should hold. *)
From Coq Require Import List ZArith Bool.
From Flocq Require Import BinarySingleNaN.
From Verif Require Import Model.Base Model.Float.
Import ListNotations.

(** Measurements: features, policy, time. *)
Notation measured := (list f64 * Z * f64)%type.
Definition numbers (l : list measured) : Prop := Forall (fun m => let '(f, _, x) := m in Forall (fun y => is_nan y = false) f /\ is_nan x = false) l.

(** Features that are equal as numbers. *)
Definition same_features (f g : list f64) : Prop := Forall2 (fun x y => eq64 x y = true) f g.
Fixpoint same_b (f g : list f64) : bool :=
  match f, g with
  | [], [] => true
  | x :: f', y :: g' => eq64 x y && same_b f' g'
  | _, _ => false
  end.

(** The times measured for features and policy, in order. *)
Definition times (l : list measured) (f : list f64) (p : Z) : list f64 :=
  map snd (filter (fun m => let '(g, q, _) := m in same_b f g && Z.eqb p q) l).

(** No two entries for the same features. *)
Definition one_each (out : list measured) : Prop :=
  forall a b f g p q x y, nth_error out a = Some (f, p, x) -> nth_error out b = Some (g, q, y) -> same_features f g -> a = b.
(** No two entries for the same features and policy. *)
Definition one_per_policy (out : list measured) : Prop :=
  forall a b f g p x y, nth_error out a = Some (f, p, x) -> nth_error out b = Some (g, p, y) -> same_features f g -> a = b.
(** An entry for the features of every measurement. *)
Definition covers (l out : list measured) : Prop :=
  forall f p x, In (f, p, x) l -> exists g q y, In (g, q, y) out /\ same_features f g.
(** An entry for features and policy of every measurement. *)
Definition covers_policies (l out : list measured) : Prop :=
  forall f p x, In (f, p, x) l -> exists g y, In (g, p, y) out /\ same_features f g.

(** The mean in doubles, summed from the left. *)
Definition mean64 (l : list f64) : f64 := div64 (fold_left add64 l zero64) (f64_of_Z (Z.of_nat (List.length l))).
