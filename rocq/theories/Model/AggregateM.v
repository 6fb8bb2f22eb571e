(** src/python/modeling/create-dataset.py: the aggregations, on the numbers of a region's rows.

    A row holds features, policy and time. Simplified: numbers are doubles, policies integers, as pandas reads them; the mean of
    a group is a parameter, since pandas chooses the order of its sums; rows have at least one feature, without which pandas
    has no key to group by and throws. *)
From Coq Require Import List ZArith Bool.
From Verif Require Import Model.Base Model.Float.
Import ListNotations.

(** features, policy, xtime; create-dataset.py lines 31-33, 47-53, 73-75. *)
Definition point := (list f64 * Z * f64)%type.
(** row[feature_cols]; lines 32, 73. *)
Definition p_features (r : point) : list f64 := fst (fst r).
(** row['policy']; lines 33, 74. *)
Definition p_policy (r : point) : Z := snd (fst r).
(** row['xtime']; lines 33, 75. *)
Definition p_time (r : point) : f64 := snd r.

(** groupby sorts its groups by their keys, column by column; lines 47, 66, 89. *)
Fixpoint keys_lt (a b : list f64) : bool :=
  match a, b with
  | x :: a', y :: b' => lt64 x y || (negb (lt64 y x) && keys_lt a' b')
  | [], _ :: _ => true
  | _, [] => false
  end.
(** Keys made of features and policy; line 47. *)
Definition pair_lt (a b : list f64 * Z) : bool :=
  keys_lt (fst a) (fst b) || (negb (keys_lt (fst b) (fst a)) && (snd a <? snd b)%Z).

(** DataFrame.groupby: rows with equal keys, in the order of the rows; the groups sorted. src/python/modeling/create-dataset.py lines 47, 66, 89 and 93. *)
Fixpoint add_row {K R} (lt : K -> K -> bool) (k : K) (r : R) (g : list (K * list R)) : list (K * list R) :=
  match g with
  | [] => [(k, [r])]
  | (k', rs) :: g' =>
      if lt k k' then (k, [r]) :: g
      else if lt k' k then (k', rs) :: add_row lt k r g'
      else (k', rs ++ [r]) :: g'
  end.
(** src/python/modeling/create-dataset.py lines 47, 66, 89 and 93. *)
Definition group_by {K R} (lt : K -> K -> bool) (key : R -> K) (rows : list R) : list (K * list R) :=
  fold_left (fun g r => add_row lt (key r) r g) rows [].

(** idxmin: the first row with the least value; lines 70 and 97. *)
Fixpoint idxmin {A} (value : A -> f64) (best : A) (l : list A) : A :=
  match l with
  | [] => best
  | x :: r => idxmin value (if lt64 (value x) (value best) then x else best) r
  end.
(** idxmin of a non-empty group; lines 70 and 97. *)
Definition least {A} (value : A -> f64) (l : list A) : list A :=
  match l with [] => [] | x :: r => [idxmin value x r] end.

(** agg_by_mean, lines 39-57. *)
Definition agg_by_mean (mean : list f64 -> f64) (rows : list point) : list point :=
  map (fun kg => (fst (fst kg), snd (fst kg), mean (map p_time (snd kg)))) (group_by pair_lt (fun r => (p_features r, p_policy r)) rows).

(** agg_by_min, lines 60-80. *)
Definition agg_by_min (rows : list point) : list point :=
  flat_map (fun kg => least p_time (snd kg)) (group_by keys_lt p_features rows).

(** agg_by_mean_min, lines 83-110. *)
Definition agg_by_mean_min (mean : list f64 -> f64) (rows : list point) : list point :=
  flat_map (fun kg =>
    let means := map (fun pg => (fst pg, mean (map p_time (snd pg)))) (group_by Z.ltb p_policy (snd kg)) in
    map (fun px => (fst kg, fst px, snd px)) (least snd means)) (group_by keys_lt p_features rows).
