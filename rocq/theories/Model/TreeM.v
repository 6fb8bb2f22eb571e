(** Decision trees: training and evaluation, src/models/impl/DecisionTreeImpl.{h,cpp}.
    The text format is in [TreeIO], the generated source in [TreeJit]. *)
From Coq Require Import List ZArith Bool.
From Flocq Require Import BinarySingleNaN.
From Verif Require Import Model.Base Model.Float.
Import ListNotations.
Open Scope Z_scope.

(** A training sample: features and class (DecisionTreeImpl.h line 107, member `data`). *)
Definition sample := (list f32 * Z)%type.

(** `Node *`: a null pointer, or a node with the fields of DecisionTreeImpl.h lines 46-55. Nodes are
    created once and never shared, so the pointer is modelled by the node itself. *)
Inductive tree :=
| Null
| Node (gini : f32) (num_samples : Z) (predicted_class : Z) (feature_idx : Z) (threshold : f32)
       (left right : tree) (count_per_class : list Z).

(** std::set<int>::insert on the ascending list of elements (DecisionTreeImpl.cpp lines 59, 84, 618). *)
Fixpoint set_insert (c : Z) (s : list Z) : list Z :=
  match s with
  | [] => [c]
  | x :: r => if c <? x then c :: s else if x <? c then x :: set_insert c r else s
  end.

(** `classes.insert(responses.begin(), responses.end())`, lines 59 and 84. *)
Definition set_insert_all (cs : list Z) (s : list Z) : list Z :=
  fold_left (fun s c => set_insert c s) cs s.

(** The counting loop of lines 266-270 and 287-291. The `int` counter is not checked for overflow:
    it would take more than 2^31 samples in memory. *)
Definition count_class (c : Z) (l : list sample) : Z :=
  Z.of_nat (length (filter (fun s => snd s =? c) l)).

(** compute_gini, lines 256-277. `count` and `n_total` are converted to float, the arithmetic is
    binary32. An empty range gives 0/0 = NaN. *)
Definition compute_gini (classes : list Z) (l : list sample) : f32 :=
  let n := f32_of_Z (Z.of_nat (length l)) in
  let g := fold_left (fun g c => let p := div32 (f32_of_Z (count_class c l)) n in
                                 add32 g (mul32 p p)) classes zero32 in
  sub32 one32 g.

(** get_count_per_class, lines 279-298. *)
Definition get_count_per_class (classes : list Z) (l : list sample) : list Z :=
  map (fun c => count_class c l) classes.

(** std::max_element as an index: the first maximum, and 0 (= end) for an empty range (line 243). *)
Definition max_index (l : list Z) : nat :=
  match l with
  | [] => O
  | x :: r => snd (fst (fold_left (fun st y => let '(best, at_, i) := st in
                                   if best <? y then (y, i, S i) else (best, at_, S i)) r (x, O, 1%nat)))
  end.

(** The leaf constructor, lines 227-246. The parameter `count_per_class`, which the body reads, has been
    moved into the member, so it is empty, `max_element` returns its end and the index is 0;
    dereferencing `DT.classes.begin()` needs a non-empty set. *)
Definition new_leaf (classes : list Z) (counts : list Z) (gini : f32) (n : Z) : outcome tree :=
  let moved_from : list Z := [] in
  let idx := max_index moved_from in
  match nth_error classes idx with
  | None => UB
  | Some c => Ok (Node gini n c (-1) zero32 Null Null counts)
  end.

(** Feature [f] of a sample, for samples known to have it.
    `It->first[feature_idx]`, src/models/impl/DecisionTreeImpl.cpp lines 338-339. *)
Definition feature (f : nat) (s : sample) : f32 := nth f (fst s) zero32.

(** The comparator of lines 333-336 and 365-368. *)
Definition feature_lt (f : nat) (x y : sample) : bool := lt32 (feature f x) (feature f y).

(** std::sort with a comparator. It is not stable: how it arranges equivalent elements is left to the
    parameter; [sorter_ok] in [TreeSpec] says what the standard guarantees. *)
Definition sorter := (sample -> sample -> bool) -> list sample -> list sample.

(** The calls of std::sort on lines 331-336 and 363-368: reading a feature outside a vector is undefined,
    and so is sorting with NaN keys, for which the comparator is not a strict weak order. *)
Definition sort_by (srt : sorter) (f : nat) (l : list sample) : outcome (list sample) :=
  if forallb (fun s => (Nat.ltb f (length (fst s)) && negb (is_nan (feature f s)))%bool) l
  then Ok (srt (feature_lt f) l) else UB.

(** Best split so far: min_gini, position of split_it from Begin (length of the range for End),
    split_feature_idx, split_threshold (lines 322-325). *)
Definition best_split := (f32 * nat * nat * f32)%type.

(** `split_threshold = (feature_val_left + feature_val_right) / 2.0;`, line 358: float sum, double
    division, conversion back to float. *)
Definition midpoint (l r : f32) : f32 := f32_of_f64 (div64 (f64_of_f32 (add32 l r)) two64).

(** The weighted gini of lines 344-351 for the split of [l] at position [i]. *)
Definition split_gini (classes : list Z) (l : list sample) (i : nat) : f32 :=
  let size := Z.of_nat (length l) in
  let idx := Z.of_nat i in
  div32 (add32 (mul32 (f32_of_Z idx) (compute_gini classes (firstn i l)))
               (mul32 (f32_of_Z (size - idx)) (compute_gini classes (skipn i l))))
        (f32_of_Z size).

(** One iteration of the loop over positions, lines 337-359, at position [i] of the sorted range [l]. *)
Definition try_split (classes : list Z) (f : nat) (l : list sample) (i : nat) (b : best_split) : best_split :=
  let '(min_gini, _, _, _) := b in
  let left := nth f (fst (nth (i - 1) l ([], 0))) zero32 in
  let right := nth f (fst (nth i l ([], 0))) zero32 in
  if eq32 left right then b
  else
    let g := split_gini classes l i in
    if le32 min_gini g then b else (g, i, f, midpoint left right).

(** The loop over positions, lines 337-359. *)
Definition scan_feature (classes : list Z) (f : nat) (l : list sample) (b : best_split) : best_split :=
  fold_left (fun b i => try_split classes f l i b) (seq 1 (length l - 1)) b.

(** The loop over features, lines 328-360; the range is re-sorted in place for each feature. *)
Fixpoint scan_features (srt : sorter) (classes : list Z) (fs : list nat) (l : list sample) (b : best_split)
  : outcome (list sample * best_split) :=
  match fs with
  | [] => Ok (l, b)
  | f :: r => let* l' := sort_by srt f l in
              scan_features srt classes r l' (scan_feature classes f l' b)
  end.

(** DecisionTreeImpl::split, lines 313-373. *)
Definition split (srt : sorter) (classes : list Z) (l : list sample) : outcome (list sample * best_split) :=
  let size := length l in
  (* assert(size > 1), line 320 *)
  if negb (Nat.ltb 1 size) then Abort
  else
    let num_features := length (fst (hd ([], 0) l)) in
    let* (l1, b) := scan_features srt classes (seq 0 num_features) l (one32, size, O, zero32) in
    let '(_, _, f, _) := b in
    let* l2 := sort_by srt f l1 in
    Ok (l2, b).

(** DecisionTreeImpl::build_tree, lines 375-414, on the range [l]; returns the node and the range as
    the sorts leave it. *)
Fixpoint build_tree (fuel : nat) (srt : sorter) (classes : list Z) (max_depth depth : Z) (l : list sample)
  : outcome (tree * list sample) :=
  match fuel with
  | O => Fuel
  | S fuel' =>
      let gini := compute_gini classes l in
      let counts := get_count_per_class classes l in
      let size := Z.of_nat (length l) in
      let* node := new_leaf classes counts gini size in
      if max_depth <=? depth then Ok (node, l)
      else match l with
      | [] => Ok (node, l)
      | _ =>
          if le32 gini zero32 then Ok (node, l)
          else
            let* (l', b) := split srt classes l in
            let '(_, pos, f, thr) := b in
            (* assert(split_it != End), line 406 *)
            if Nat.eqb pos (length l') then Abort
            else
              let* (lt, ll) := build_tree fuel' srt classes max_depth (depth + 1) (firstn pos l') in
              let* (rt, lr) := build_tree fuel' srt classes max_depth (depth + 1) (skipn pos l') in
              match node with
              | Node g n c _ _ _ _ cs => Ok (Node g n c (Z.of_nat f) thr lt rt cs, ll ++ lr)
              | Null => UB
              end
      end
  end.

(** The members of DecisionTreeImpl that matter to its behaviour (DecisionTreeImpl.h lines 107-112).
    `root` is indeterminate until trained or loaded: [Null], whose evaluation is undefined.
    Likewise num_features (and max_depth in the loading constructors, which set it before use). *)
Record dtree := mkTree {
  t_data : list sample;
  t_classes : list Z;
  t_root : tree;
  t_num_features : Z;
  t_max_depth : Z
}.

(** The constructor of lines 48-53. *)
Definition new_dtree (max_depth : Z) : dtree := mkTree [] [] Null 0 max_depth.

(** DecisionTreeImpl::train, lines 54-72. *)
Definition dt_train (srt : sorter) (t : dtree) (features : list (list f32)) (responses : list Z)
  : outcome dtree :=
  match features with
  | [] => UB
  | f :: _ =>
      let classes := set_insert_all responses (t_classes t) in
      if negb (Nat.leb (length features) (length responses)) then UB
      else
        let data := combine features responses in
        let* (root, data') := build_tree (S (length data)) srt classes (t_max_depth t) 0 data in
        Ok (mkTree data' classes root (Z.of_nat (length f)) (t_max_depth t))
  end.

(** The training constructor, lines 74-96. *)
Definition new_trained_dtree (srt : sorter) (features : list (list f32)) (responses : list Z) (max_depth : Z)
  : outcome dtree := dt_train srt (new_dtree max_depth) features responses.

(** DecisionTreeImpl::evaluate_tree, lines 300-311. [features[i]] outside the vector is undefined. *)
Fixpoint evaluate (t : tree) (features : list f32) : outcome Z :=
  match t with
  | Null => UB
  | Node _ _ c f thr l r _ =>
      if f =? -1 then Ok c
      else
        let* x := vec_get features f in
        if lt32 x thr
        then match l with Null => Ok c | _ => evaluate l features end
        else match r with Null => Ok c | _ => evaluate r features end
  end.

(** DecisionTreeImpl::predict without ENABLE_JIT_DTREE, lines 191-198. *)
Definition dt_predict (t : dtree) (features : list f32) : outcome Z := evaluate (t_root t) features.
