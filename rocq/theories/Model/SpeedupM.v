(** The speedups analyze-traces.py prints, src/python/analysis/analyze-traces.py lines 62-78 and 252-263.
    The times are Python floats (iterating a pandas Series gives those), so that dividing by zero throws. The rounding of what is
    printed to three digits is left out. *)
From Coq Require Import List ZArith Bool Ascii String.
From Flocq Require Import BinarySingleNaN.
From Verif Require Import Model.Base Model.Float Model.ConfigM Model.RuntimeM Model.CreateDatasetM Model.WriteOptM Model.AnalyzeM.
From Coq Require Import List.
Import ListNotations.

(** sum of a pair of times, src/python/analysis/analyze-traces.py lines 67, 75 and 76: sum starts at 0. *)
Definition pair_sum (t : f64 * f64) : f64 := add64 (add64 zero64 (fst t)) (snd t).

(** The quotients in lines 67 and 75-76; division by zero throws. *)
Definition speedup (base model : f64 * f64) : outcome f64 :=
  if eq64 (pair_sum model) zero64 then Throw else Ok (div64 (pair_sum base) (pair_sum model)).

(** compute_speedup, lines 62-78, with the minimum of lines 253-254: the speedups over Static,0 and over the best static policy.
    A static policy has the pair of its time and 0, lines 53-55; a missing key throws. *)
Definition speedups (statics : list (bytes * f64)) (model : f64 * f64) : outcome (f64 * f64) :=
  let* best := best_static statics in
  match find (fun kv => bytes_eqb (fst kv) ($"Static,0")) statics with
  | Some first =>
      let* a := speedup (snd first, zero64) model in
      let* b := speedup (snd best, zero64) model in
      Ok (a, b)
  | None => Throw
  end.
