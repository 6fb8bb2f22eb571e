(** Model of Apollo::Dataset (include/apollo/Dataset.h, src/Dataset.cpp), without the
    text format, which is in [DatasetIO]. *)
From Coq Require Import List ZArith Bool.
From Flocq Require Import BinarySingleNaN.
From Verif Require Import Model.Base Model.Float.
Import ListNotations.
Open Scope Z_scope.

(** Key of the std::map: features vector and policy (include/apollo/Dataset.h line 41). *)
Definition key := (list f32 * Z)%type.
(** Contents of the std::map in iteration order (include/apollo/Dataset.h line 41). *)
Definition dataset := list (key * f64).

(** `operator<` of std::vector<float>, i.e. std::lexicographical_compare: the order of the
    features part of the map key (src/Dataset.cpp lines 32-33) and of the best_policies map
    (src/Dataset.cpp line 57). *)
Fixpoint vec_lt (a b : list f32) : bool :=
  match a, b with
  | _, [] => false
  | [], _ :: _ => true
  | x :: a', y :: b' =>
      if lt32 x y then true else if lt32 y x then false else vec_lt a' b'
  end.

(** `operator<` of std::pair<std::vector<float>, int> (the map's std::less, src/Dataset.cpp line 33). *)
Definition key_lt (a b : key) : bool :=
  (vec_lt (fst a) (fst b) || (negb (vec_lt (fst b) (fst a)) && (snd a <? snd b)))%bool.

(** A features vector without NaN. With a NaN feature the comparator is not a strict weak
    order and std::map operations are undefined. *)
Definition nan_free (f : list f32) : bool := forallb (fun x => negb (is_nan x)) f.

(** std::map::find for a map with comparator [lt], given by its ordered list of pairs
    (src/Dataset.cpp lines 33 and 65). *)
Fixpoint map_find {K V} (lt : K -> K -> bool) (k : K) (m : list (K * V)) : option V :=
  match m with
  | [] => None
  | (k', v) :: r => if (negb (lt k k') && negb (lt k' k))%bool then Some v else map_find lt k r
  end.

(** std::map::emplace / insert of an absent key, at its place in the order
    (src/Dataset.cpp lines 35 and 67). *)
Fixpoint map_add {K V} (lt : K -> K -> bool) (k : K) (v : V) (m : list (K * V)) : list (K * V) :=
  match m with
  | [] => [(k, v)]
  | (k', v') :: r => if lt k k' then (k, v) :: (k', v') :: r else (k', v') :: map_add lt k v r
  end.

(** Assignment through the iterator of a present key; the stored key is kept
    (src/Dataset.cpp lines 38 and 71). *)
Fixpoint map_update {K V} (lt : K -> K -> bool) (k : K) (v : V) (m : list (K * V)) : list (K * V) :=
  match m with
  | [] => []
  | (k', v') :: r =>
      if (negb (lt k k') && negb (lt k' k))%bool then (k', v) :: r
      else (k', v') :: map_update lt k v r
  end.

(** Exponential moving average of line 38: `.5 * it->second + .5 * metric` (double). *)
Definition ema (old new : f64) : f64 := add64 (mul64 half64 old) (mul64 half64 new).

(** Dataset::insert(features, policy, metric), src/Dataset.cpp lines 28-39. *)
Definition ds_insert (d : dataset) (features : list f32) (policy : Z) (metric : f64)
  : outcome dataset :=
  if negb (nan_free features) then UB
  else
    let k := (features, policy) in
    match map_find key_lt k d with
    | None => Ok (map_add key_lt k metric d)
    | Some old => Ok (map_update key_lt k (ema old metric) d)
    end.

(** Dataset::insert(Dataset &ds), src/Dataset.cpp lines 41-49: loop over the source map.
    The source's features are copied (line 44), so the source is unchanged. *)
Fixpoint ds_merge (d : dataset) (src : dataset) : outcome dataset :=
  match src with
  | [] => Ok d
  | ((f, p), m) :: r => let* d' := ds_insert d f p m in ds_merge d' r
  end.

(** Dataset::size, src/Dataset.cpp line 10. *)
Definition ds_size (d : dataset) : Z := Z.of_nat (length d).

(** Dataset::clear, src/Dataset.cpp line 12. *)
Definition ds_clear (d : dataset) : dataset := [].

(** Dataset::toVectorOfTuples, src/Dataset.cpp lines 14-26. *)
Definition ds_to_vector (d : dataset) : list (list f32 * Z * f64) :=
  map (fun e => (fst (fst e), snd (fst e), snd e)) d.

(** The map best_policies of src/Dataset.cpp line 57. *)
Definition best_map := list (list f32 * (Z * f64)).

(** One iteration of the reduction loop, src/Dataset.cpp lines 60-73. *)
Definition min_step (best : best_map) (e : key * f64) : best_map :=
  let '((f, p), avg) := e in
  match map_find vec_lt f best with
  | None => map_add vec_lt f (p, avg) best
  | Some (_, prev) => if lt64 avg prev then map_update vec_lt f (p, avg) best else best
  end.

(** Dataset::findMinMetricPolicyByFeatures, src/Dataset.cpp lines 51-92: appends to the
    vectors passed by the caller ([fs], [ps]) and returns the map. *)
Definition ds_find_min (d : dataset) (fs : list (list f32)) (ps : list Z)
  : list (list f32) * list Z * best_map :=
  let best := fold_left min_step d [] in
  (fs ++ map fst best, ps ++ map (fun b => fst (snd b)) best, best).
