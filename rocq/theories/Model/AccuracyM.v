(** src/python/analysis/analyze-traces.py: the times and the accuracy of models that explore and are trained (--rr, --random).

    Tables are those of CreateDatasetM, the best choices rows of WriteOptM. The histograms
    (lines 104-110) are in HistogramM. *)
From Coq Require Import List ZArith Bool Ascii String.
From Flocq Require Import BinarySingleNaN.
From Verif Require Import Model.Base Model.Float Model.Decimal Model.CreateDatasetM Model.WriteOptM Model.AnalyzeM.
Import ListNotations.

(** compute_execution_time with a model to explore and one trained, lines 36-55: the times of both. *)
Definition both_times (num : bytes -> f64) (data : table) (rank : Z) (init trained : bytes) : outcome (f64 * f64) :=
  let* a := execution_time num data rank init in
  let* b := execution_time num data rank trained in
  Ok (a, b).

(** Whether a text begins with another; str.contains, line 85. *)
Fixpoint begins_with (w s : bytes) : bool :=
  match w, s with
  | [], _ => true
  | c :: w', x :: s' => Ascii.eqb c x && begins_with w' s'
  | _ :: _, [] => false
  end.
(** data['training'].str.contains(trained_model), line 85. It takes a regular expression; in the names given to it, DecisionTree,
    Load and Optimal, no character is special. *)
Fixpoint has_text (w s : bytes) : bool :=
  begins_with w s || match s with [] => false | _ :: r => has_text w r end.

(** Whether a row has the policy that [opt], which has one row for a region and index, has for its execution: isin of frames with
    these as index, line 95. An execution that is missing in [opt] does not match. *)
Definition row_matches (cols : list bytes) (opt : list opt_row) (row : list cell) : bool :=
  match find (fun r => cell_eqb (at_column cols row ($"region")) (Some (o_region r)) && cell_eqb (at_column cols row ($"idx")) (Some (print_Z (o_idx r)))) opt with
  | Some r => cell_eqb (at_column cols row ($"policy")) (Some (print_Z (o_policy r)))
  | None => false
  end.

(** compute_accuracy, lines 81-101 and 135: the rows that match, and all rows of the rank and the model. *)
Definition compute_accuracy (data : table) (opt : list opt_row) (rank : Z) (trained : bytes) : outcome (nat * nat) :=
  let cols := columns data in
  if forallb (has_column cols) [$"rankid"; $"training"; $"region"; $"idx"; $"policy"; $"xtime"]
  then
    let mine := filter (fun row => cell_eqb (at_column cols row ($"rankid")) (Some (print_Z rank)) &&
      match at_column cols row ($"training") with Some t => has_text trained t | None => false end) (rows data) in
    Ok (List.length (filter (row_matches cols opt) mine), List.length mine)
  else Throw.

(** Whether a time differs from the best by no more than 10 per cent of the best: lines 120-123 with DIFF_PCT of line 268. *)
Definition within_ten (best time : f64) : bool :=
  Bleb (div64 (mul64 (Babs (sub64 best time)) (f64_of_Z 100)) best) (f64_of_Z 10).
(** The same of a row and the row of [opt] for its execution; without one the difference is NaN. src/python/analysis/analyze-traces.py lines 114-123. *)
Definition row_close (num : bytes -> f64) (cols : list bytes) (opt : list opt_row) (row : list cell) : bool :=
  match find (fun r => cell_eqb (at_column cols row ($"region")) (Some (o_region r)) && cell_eqb (at_column cols row ($"idx")) (Some (print_Z (o_idx r)))) opt with
  | Some r => within_ten (o_time r) (cell_number num (at_column cols row ($"xtime")))
  | None => false
  end.
(** Whether no two rows are of the same execution; lines 85-86. *)
Fixpoint executed_once (cols : list bytes) (l : list (list cell)) : bool :=
  match l with
  | [] => true
  | row :: r => negb (existsb (fun y => cell_same (at_column cols row ($"region")) (at_column cols y ($"region")) && cell_same (at_column cols row ($"idx")) (at_column cols y ($"idx"))) r) &&
                executed_once cols r
  end.
(** nrelaxed of compute_accuracy, lines 81-87 and 112-135: rows that match, and those that do not but are close. How pandas
    lines up several rows of one execution is not modelled. *)
Definition compute_relaxed (num : bytes -> f64) (data : table) (opt : list opt_row) (rank : Z) (trained : bytes) : outcome nat :=
  let cols := columns data in
  if forallb (has_column cols) [$"rankid"; $"training"; $"region"; $"idx"; $"policy"; $"xtime"]
  then
    let mine := filter (fun row => cell_eqb (at_column cols row ($"rankid")) (Some (print_Z rank)) &&
      match at_column cols row ($"training") with Some t => has_text trained t | None => false end) (rows data) in
    if executed_once cols mine
    then Ok (List.length (filter (row_matches cols opt) mine) + List.length (filter (fun row => negb (row_matches cols opt row) && row_close num cols opt row) mine))%nat
    else UB
  else Throw.
