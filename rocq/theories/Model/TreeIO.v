(** Text format of decision trees: DecisionTreeImpl::save and load, src/models/impl/DecisionTreeImpl.cpp
    lines 182-189, 248-254 and 416-630; src/helpers/OutputFormatter.h for the indentation. *)
From Coq Require Import List ZArith Bool Ascii String.
From Verif Require Import Model.Base Model.Float Model.Decimal Model.ParserM Model.TreeM.
Import ListNotations.
Open Scope Z_scope.

(** OutputFormatter::operator<< writes two spaces per level before the value
    (src/helpers/OutputFormatter.h lines 37-44). *)
Fixpoint indent (level : nat) : bytes :=
  match level with
  | O => []
  | S k => $"  " ++ indent k
  end.

(** A whole line: operator<< followed by operator& items (src/helpers/OutputFormatter.h lines 37-51). *)
Definition line (level : nat) (s : bytes) : bytes := indent level ++ s ++ [nl].

(** The loop over classes of output_node, lines 463-467: `count_per_class[i]` is read for every class. *)
Fixpoint output_counts (level : nat) (classes counts : list Z) : outcome bytes :=
  match classes, counts with
  | [], _ => Ok []
  | _ :: _, [] => UB
  | c :: cs, n :: ns =>
      let* r := output_counts level cs ns in
      Ok (line level (print_Z c ++ $": " ++ print_Z n ++ $",") ++ r)
  end.

(** DecisionTreeImpl::output_node, lines 450-475. A null child is not written. *)
Fixpoint output_node (level : nat) (classes : list Z) (t : tree) (key : bytes) : outcome bytes :=
  match t with
  | Null => UB
  | Node gini n c f thr l r counts =>
      let* cs := output_counts (S level) classes counts in
      let* lt := match l with Null => Ok [] | _ => output_node (S level) classes l ($"left") end in
      let* rt := match r with Null => Ok [] | _ => output_node (S level) classes r ($"right") end in
      Ok (line level (key ++ $": {")
          ++ line (S level) ($"gini: " ++ print_float gini ++ $",")
          ++ line (S level) ($"num_samples: " ++ print_Z n ++ $",")
          ++ line (S level) ($"predicted_class: " ++ print_Z c ++ $",")
          ++ line (S level) ($"feature_idx: " ++ print_Z f ++ $",")
          ++ line (S level) ($"threshold: " ++ print_float thr ++ $",")
          ++ line (S level) ($"count_per_class: {")
          ++ cs
          ++ line (S level) ($"},")
          ++ lt ++ rt
          ++ line level ($"},"))
  end.

(** One line of the data block, lines 433-441. *)
Definition output_sample (level : nat) (idx : Z) (s : sample) : bytes :=
  line level (print_Z idx ++ $": { " ++ $"features: [ "
              ++ List.concat (map (fun x : f32 => print_float x ++ $", ") (fst s))
              ++ $"], " ++ $"class: " ++ print_Z (snd s) ++ $" },").

(** The loop over data, lines 431-442. *)
Fixpoint output_data (level : nat) (idx : Z) (d : list sample) : bytes :=
  match d with
  | [] => []
  | s :: r => output_sample level idx s ++ output_data level (idx + 1) r
  end.

(** DecisionTreeImpl::output_tree, lines 416-448, with include_data. *)
Definition output_tree (level : nat) (key : bytes) (t : dtree) : outcome bytes :=
  let* root := output_node (S level) (t_classes t) (t_root t) ($"root") in
  Ok (line level (key ++ $": {")
      ++ line (S level) ($"max_depth: " ++ print_Z (t_max_depth t) ++ $",")
      ++ line (S level) ($"classes: [ " ++ List.concat (map (fun c => print_Z c ++ $", ") (t_classes t)) ++ $"],")
      ++ line (S level) ($"num_features: " ++ print_Z (t_num_features t) ++ $",")
      ++ root
      ++ line (S level) ($"data: {")
      ++ output_data (S (S level)) 0 (t_data t)
      ++ line (S level) ($"},")
      ++ line level ($"}")).

(** DecisionTreeImpl::save, lines 182-189: the contents of the file. *)
Definition dt_save (t : dtree) : outcome bytes :=
  let* s := output_tree 0 ($"tree") t in
  Ok ($"# DecisionTreeImpl" ++ [nl] ++ s).

(** parseKeyVal, lines 535-544 (and src/models/impl/RandomForestImpl.cpp lines 111-120), for each type it is
    used with: float, size_t, int, unsigned. *)
Definition key_val {A} (parse : parser -> outcome (A * parser)) (key : bytes) (p : parser) : outcome (A * parser) :=
  let* p := expect_next key p in
  let* p := get_next_token p in
  let* (v, p) := parse p in
  let* p := parse_expected ($",") p in
  Ok (v, p).

(** DecisionTreeImpl::parse_count_per_class, lines 477-493. *)
Fixpoint parse_counts (fuel : nat) (acc : list Z) (p : parser) : outcome (list Z * parser) :=
  match fuel with
  | O => Fuel
  | S fuel' =>
      let* p := get_next_token p in
      if token_is p ($"},") then Ok (acc, p)
      else
        let* (_, p) := parse_int p in
        let* p := parse_expected ($":") p in
        let* p := get_next_token p in
        let* (v, p) := parse_ulong p in
        let* p := parse_expected ($",") p in
        parse_counts fuel' (acc ++ [v]) p
  end.

(** DecisionTreeImpl::parse_node, lines 546-596. *)
Fixpoint parse_node (fuel : nat) (p : parser) : outcome (tree * parser) :=
  match fuel with
  | O => Fuel
  | S fuel' =>
      let* p := expect_next ($"{") p in
      let* (gini, p) := key_val parse_float ($"gini:") p in
      let* (n, p) := key_val parse_ulong ($"num_samples:") p in
      let* (c, p) := key_val parse_int ($"predicted_class:") p in
      let* (f, p) := key_val parse_int ($"feature_idx:") p in
      let* (thr, p) := key_val parse_float ($"threshold:") p in
      let* p := expect_next ($"count_per_class:") p in
      let* p := expect_next ($"{") p in
      let* (counts, p) := parse_counts (S (List.length (p_in p))) [] p in
      let* p := get_next_token p in
      let* (l, p) := (if token_is p ($"left:")
                      then let* (l, p) := parse_node fuel' p in let* p := get_next_token p in Ok (l, p)
                      else Ok (Null, p)) in
      let* (r, p) := (if token_is p ($"right:")
                      then let* (r, p) := parse_node fuel' p in let* p := get_next_token p in Ok (r, p)
                      else Ok (Null, p)) in
      let* p := parse_expected ($"},") p in
      Ok (Node gini n c f thr l r counts, p)
  end.

(** The features loop of parse_data, lines 514-519. *)
Fixpoint parse_features (fuel : nat) (acc : list f32) (p : parser) : outcome (list f32 * parser) :=
  match fuel with
  | O => Fuel
  | S fuel' =>
      let* p := get_next_token p in
      if token_is p ($"],") then Ok (acc, p)
      else
        let* (x, p) := parse_float p in
        let* p := parse_expected ($",") p in
        parse_features fuel' (acc ++ [x]) p
  end.

(** The record loop of parse_data, lines 502-532: the token that holds the record's index is only compared
    with "},", never parsed. *)
Fixpoint parse_samples (fuel : nat) (acc : list sample) (p : parser) : outcome (list sample * parser) :=
  match fuel with
  | O => Fuel
  | S fuel' =>
      let* p := get_next_token p in
      if token_is p ($"},") then Ok (acc, p)
      else
        let* p := expect_next ($"{") p in
        let* p := expect_next ($"features:") p in
        let* p := expect_next ($"[") p in
        let* (fs, p) := parse_features (S (List.length (p_in p))) [] p in
        let* p := expect_next ($"class:") p in
        let* p := get_next_token p in
        let* (c, p) := parse_int p in
        let* p := expect_next ($"},") p in
        parse_samples fuel' (acc ++ [(fs, c)]) p
  end.

(** The classes loop of parse_tree, lines 614-619. *)
Fixpoint parse_classes (fuel : nat) (classes : list Z) (p : parser) : outcome (list Z * parser) :=
  match fuel with
  | O => Fuel
  | S fuel' =>
      let* p := get_next_token p in
      if token_is p ($"],") then Ok (classes, p)
      else
        let* (c, p) := parse_int p in
        let* p := parse_expected ($",") p in
        parse_classes fuel' (set_insert c classes) p
  end.

(** DecisionTreeImpl::parse_tree, lines 598-630: reads into the tree [t] (classes and data accumulate)
    from the stream [s]; returns the unread input. *)
Definition parse_tree (t : dtree) (s : bytes) : outcome (dtree * bytes) :=
  let* p := expect_next ($"tree:") (new_parser s) in
  let* p := expect_next ($"{") p in
  let* (md, p) := key_val parse_uint ($"max_depth:") p in
  let* p := expect_next ($"classes:") p in
  let* p := expect_next ($"[") p in
  let* (classes, p) := parse_classes (S (List.length (p_in p))) (t_classes t) p in
  let* (nf, p) := key_val parse_uint ($"num_features:") p in
  let* p := expect_next ($"root:") p in
  let* (root, p) := parse_node (S (List.length (p_in p))) p in
  let* p := expect_next ($"data:") p in
  let* p := expect_next ($"{") p in
  let* (data, p) := parse_samples (S (List.length (p_in p))) (t_data t) p in
  let* p := expect_next ($"}") p in
  Ok (mkTree data classes root nf md, p_in p).

(** DecisionTreeImpl::load, lines 248-254, of an existing file with contents [s]. *)
Definition dt_load (t : dtree) (s : bytes) : outcome dtree :=
  let* (t', _) := parse_tree t s in Ok t'.
