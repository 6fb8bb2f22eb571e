(** What the plots of plot-trace.py should show. *)
From Coq Require Import List ZArith Bool Ascii String.
From Flocq Require Import BinarySingleNaN.
From Verif Require Import Model.Base Model.Float Model.Decimal Model.RuntimeM Spec.DatasetSpec Spec.RuntimeSpec Spec.CreateDatasetSpec.
Import ListNotations.

(** The executions as numbers: the first feature, the policy and the time, as the trace prints them. *)
Definition seen : Type := f64 * f64 * f64.
Definition seen_of (num : bytes -> f64) (e : entry) : seen := (num (List.hd [] (feature_texts e)), num (policy_text e), num (metric_text e)).
Definition with_both (f p : f64) (s : seen) : bool := let '(g, q, _) := s in eq64 g f && eq64 q p.
Definition times_with (f p : f64) (l : list seen) : list f64 := map snd (filter (with_both f p) l).

(** Every number of a list once, in rising order. *)
Inductive rising : list f64 -> Prop :=
| rising_nil : rising []
| rising_one x : rising [x]
| rising_cons x y l : lt64 x y = true -> rising (y :: l) -> rising (x :: y :: l).
Definition occurs (x : f64) (l : list f64) : Prop := exists y, In y l /\ eq64 y x = true.
Definition each_once (all l : list f64) : Prop := rising l /\ (forall x, In x l -> In x all) /\ (forall x, In x all -> occurs x l).

(** The bars of some executions: for each feature and each policy one, as high as they were executed together, with the mean of
    their times in millionths, or 0. *)
Definition right_bars (mean : list f64 -> f64) (format : f64 -> bytes) (l : list seen) (bars : list (f64 * f64 * nat * bytes)) : Prop :=
  exists fs ps, each_once (map (fun s => fst (fst s)) l) fs /\ each_once (map (fun s => snd (fst s)) l) ps /\
    bars = flat_map (fun f => map (fun p => (f, p, List.length (times_with f p l),
      match times_with f p l with [] => $"0" | ts => format (mul64 (mean ts) (f64_of_Z 1000000)) end)) ps) fs.

(** The features and policies are numbers. *)
Definition readable_numbers (l : list seen) : Prop := Forall (fun s => is_nan (fst (fst s)) = false /\ is_nan (snd (fst s)) = false) l.
(** The heights of bars added up. *)
Definition heights (bars : list (f64 * f64 * nat * bytes)) : nat := list_sum (map (fun b => snd (fst b)) bars).
