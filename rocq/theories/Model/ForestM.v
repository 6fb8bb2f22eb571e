(** Random forests: src/models/impl/RandomForestImpl.cpp. *)
From Coq Require Import List ZArith Bool Ascii String.
From Verif Require Import Model.Base Model.Float Model.Decimal Model.ParserM Model.TreeM Model.TreeIO.
Import ListNotations.
Open Scope Z_scope.

(** Members of RandomForestImpl (RandomForestImpl.h lines 37-40). *)
Record forest := mkForest {
  f_trees : list dtree;
  f_num_classes : Z;
  f_num_trees : Z;
  f_max_depth : Z
}.

(** The constructor of lines 23-28. *)
Definition new_forest (num_classes num_trees max_depth : Z) : forest := mkForest [] num_classes num_trees max_depth.

(** The draws of `std::mt19937 generator; std::uniform_int_distribution<size_t> uniform_dist(0, n - 1);`
    (lines 34-35): [pick n k] is the k-th draw. The generator has its default seed in every call of train, so the
    draws are a function of [n] and [k]; the algorithms themselves are not modelled. *)
Definition picker := nat -> nat -> nat.

(** The sampling loop of lines 41-45 for the tree that starts at draw [k]. *)
Fixpoint sample_loop (pick : picker) (n : nat) (todo : nat) (k : nat)
  (features : list (list f32)) (responses : list Z) : outcome (list (list f32) * list Z) :=
  match todo with
  | O => Ok ([], [])
  | S todo' =>
      let i := Z.of_nat (pick n k) in
      let* f := vec_get features i in
      let* r := vec_get responses i in
      let* (fs, rs) := sample_loop pick n todo' (S k) features responses in
      Ok (f :: fs, r :: rs)
  end.

(** The tree loop of lines 37-49 for [todo] more trees: the trees pushed to rfc. *)
Fixpoint train_loop (srt : sorter) (pick : picker) (max_depth : Z) (todo : nat) (k : nat)
  (features : list (list f32)) (responses : list Z) : outcome (list dtree) :=
  match todo with
  | O => Ok []
  | S todo' =>
      let n := List.length features in
      let* (fs, rs) := sample_loop pick n n k features responses in
      let* t := new_trained_dtree srt fs rs max_depth in
      let* ts := train_loop srt pick max_depth todo' (k + n) features responses in
      Ok (t :: ts)
  end.

(** RandomForestImpl::train, lines 30-50. *)
Definition f_train (srt : sorter) (pick : picker) (f : forest) (features : list (list f32)) (responses : list Z)
  : outcome forest :=
  let* ts := train_loop srt pick (f_max_depth f) (Z.to_nat (f_num_trees f)) 0 features responses in
  Ok (mkForest (f_trees f ++ ts) (f_num_classes f) (f_num_trees f) (f_max_depth f)).

(** The trees loop of output_rfc, lines 90-97. *)
Fixpoint output_trees (ts : list dtree) : outcome bytes :=
  match ts with
  | [] => Ok []
  | t :: r =>
      let* s := output_tree 2 ($"tree") t in
      let* q := output_trees r in
      Ok (s ++ line 2 ($",") ++ q)
  end.
(** RandomForestImpl::output_rfc, lines 78-101, at level 0. *)
Definition output_rfc (f : forest) : outcome bytes :=
  let* trees := output_trees (f_trees f) in
  Ok (line 0 ($"rfc: {")
      ++ line 1 ($"num_trees: " ++ print_Z (f_num_trees f) ++ $",")
      ++ line 1 ($"max_depth: " ++ print_Z (f_max_depth f) ++ $",")
      ++ line 1 ($"classes: [ "
                 ++ List.concat (map (fun i => print_Z (Z.of_nat i) ++ $", ") (seq 0 (Z.to_nat (f_num_classes f))))
                 ++ $"],")
      ++ line 1 ($"trees:" ++ $" [")
      ++ trees
      ++ line 1 ($"]")
      ++ line 0 ($"}")).

(** RandomForestImpl::save, lines 103-110. *)
Definition f_save (f : forest) : outcome bytes :=
  let* s := output_rfc f in
  Ok ($"# RandomForestImpl" ++ [nl] ++ s).

(** The classes loop of parse_rfc, lines 141-145: the last index read plus one; incrementing the largest int is
    undefined. *)
Fixpoint parse_class_idx (fuel : nat) (idx : Z) (p : parser) : outcome (Z * parser) :=
  match fuel with
  | O => Fuel
  | S fuel' =>
      let* p := get_next_token p in
      if token_is p ($"],") then Ok (idx, p)
      else
        let* (c, p) := parse_int p in
        let* p := parse_expected ($",") p in
        if c =? 2147483647 then UB else parse_class_idx fuel' (c + 1) p
  end.

(** The tree loop of parse_rfc, lines 156-160: each tree reads from the same stream through its own parser
    (DecisionTreeImpl(int, std::istream&), DecisionTreeImpl.cpp lines 26-34). *)
Fixpoint parse_trees (todo : nat) (p : parser) : outcome (list dtree * parser) :=
  match todo with
  | O => Ok ([], p)
  | S todo' =>
      let* (t, rest) := parse_tree (new_dtree 0) (p_in p) in
      let p := mkParser rest (p_buf p) (p_off p) in
      let* p := get_next_token p in
      let* p := parse_expected ($",") p in
      let* (ts, p) := parse_trees todo' p in
      Ok (t :: ts, p)
  end.

(** RandomForestImpl::parse_rfc and load, lines 122-173, of an existing file. The loop index is an int compared
    with an unsigned. *)
Definition f_load (f : forest) (s : bytes) : outcome forest :=
  let* p := expect_next ($"rfc:") (new_parser s) in
  let* p := expect_next ($"{") p in
  let* (num_trees, p) := key_val parse_uint ($"num_trees:") p in
  let* (max_depth, p) := key_val parse_uint ($"max_depth:") p in
  let* p := expect_next ($"classes:") p in
  let* p := expect_next ($"[") p in
  let* (idx, p) := parse_class_idx (S (List.length (p_in p))) 0 p in
  if negb (idx =? f_num_classes f) then Throw
  else
    let* p := expect_next ($"trees:") p in
    let* p := expect_next ($"[") p in
    let* (ts, p) := parse_trees (Z.to_nat num_trees) p in
    let* p := expect_next ($"]") p in
    let* _ := expect_next ($"}") p in
    Ok (mkForest (f_trees f ++ ts) (f_num_classes f) num_trees max_depth).

(** `count_per_class[c]++` (line 185). *)
Fixpoint bump (c : nat) (counts : list Z) : list Z :=
  match counts, c with
  | [], _ => []
  | n :: r, O => (n + 1) :: r
  | n :: r, S c' => n :: bump c' r
  end.

(** The voting loop, lines 182-186: a vote outside the classes fails the assertion. *)
Fixpoint votes (ts : list dtree) (num_classes : Z) (features : list f32) (counts : list Z) : outcome (list Z) :=
  match ts with
  | [] => Ok counts
  | t :: r =>
      let* c := dt_predict t features in
      if (0 <=? c) && (c <? num_classes) then votes r num_classes features (bump (Z.to_nat c) counts)
      else Abort
  end.

(** The selection loop, lines 188-190: position and count of the best class so far. *)
Fixpoint first_max (counts : list Z) (i : Z) (best : Z) (best_count : Z) : Z :=
  match counts with
  | [] => best
  | n :: r => if best_count <? n then first_max r (i + 1) i n else first_max r (i + 1) best best_count
  end.

(** RandomForestImpl::predict, lines 175-193. An array of no elements is undefined. *)
Definition f_predict (f : forest) (features : list f32) : outcome Z :=
  if f_num_classes f <=? 0 then UB
  else
    let* counts := votes (f_trees f) (f_num_classes f) features (repeat 0 (Z.to_nat (f_num_classes f))) in
    match counts with
    | [] => UB
    | n :: r => Ok (first_max r 1 0 n)
    end.
