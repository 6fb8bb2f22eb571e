(** src/python/analysis/run-exhaustive.py and analyze-traces.py: which traces are read and the times that are added up.

    Tables are those of CreateDatasetM. Simplified: a directory is a list of names and contents in the order glob gives them; in
    patterns only the star is special, which is so for the names of models used here; how pandas makes a number of a text is a
    parameter. *)
From Coq Require Import List ZArith Bool Ascii String.
From Flocq Require Import BinarySingleNaN.
From Verif Require Import Model.Base Model.Float Model.Decimal Model.CreateDatasetM Model.WriteOptM.
Import ListNotations.

(** Whether a name matches a pattern of glob.glob, analyze-traces.py line 25: a star stands for any text. *)
Fixpoint glob (p : bytes) : bytes -> bool :=
  match p with
  | [] => fun s => match s with [] => true | _ :: _ => false end
  | c :: p' =>
      if Ascii.eqb c "*"
      then fix star s := glob p' s || match s with [] => false | _ :: r => star r end
      else fun s => match s with [] => false | x :: r => Ascii.eqb x c && glob p' r end
  end.

(** '%s/trace*%s-*.csv' without the directory, line 25. *)
Definition trace_pattern (model : bytes) : bytes := $"trace*" ++ model ++ $"-*.csv".

(** The name of the trace of a region, src/Region.cpp lines 383-386, without the directory. *)
Definition trace_name (info region : bytes) (rank : Z) : bytes :=
  $"trace-" ++ info ++ $"-region-" ++ region ++ $"-rank-" ++ print_Z rank ++ $".csv".

(** The files read_csv(dir, model, csv_map) puts in csv_map for each model in turn, lines 24-33 and 169-173: a file is in it once. *)
Definition matched (dir : list (bytes * bytes)) (models : list bytes) : list (bytes * bytes) :=
  fold_left (fun have m => have ++ filter (fun f => glob (trace_pattern m) (fst f) && negb (existsb (bytes_eqb (fst f)) (map fst have))) dir) models [].

(** 'Static,policy=%d' % (p), analyze-traces.py line 173; also the setting of run-exhaustive.py line 21. *)
Definition static_setting (p : Z) : bytes := $"Static,policy=" ++ print_Z p.
(** for p in range(0, args.nstatic), analyze-traces.py line 171; run-exhaustive.py line 20. *)
Definition static_settings (n : nat) : list bytes := map (fun p => static_setting (Z.of_nat p)) (seq 0 n).

(** data_map[...], lines 169-175: pandas.concat of no table throws. *)
Definition load_traces (dir : list (bytes * bytes)) (models : list bytes) : outcome table := read_tracefiles (map snd (matched dir models)).

(** The number in a cell, NaN if it is missing. src/python/analysis/analyze-traces.py line 42. *)
Definition cell_number (num : bytes -> f64) (c : cell) : f64 := match c with Some s => num s | None => B754_nan end.

(** compute_execution_time for one model, lines 36-43: the sum of the times of a rank measured with a model of a name. *)
Definition execution_time (num : bytes -> f64) (data : table) (rank : Z) (model : bytes) : outcome f64 :=
  if has_column (columns data) ($"rankid") && has_column (columns data) ($"training") && has_column (columns data) ($"xtime")
  then Ok (fold_left add64
    (map (fun row => cell_number num (at_column (columns data) row ($"xtime")))
      (filter (fun row => cell_eqb (at_column (columns data) row ($"rankid")) (Some (print_Z rank)) &&
                          cell_eqb (at_column (columns data) row ($"training")) (Some model)) (rows data))) zero64)
  else Throw.

(** xtime_per_pol of the static policies, lines 205-207. *)
Definition static_times (num : bytes -> f64) (data : table) (rank : Z) (n : nat) : outcome (list (bytes * f64)) :=
  map_all (fun j => let name := $"Static," ++ print_Z (Z.of_nat j) in let* t := execution_time num data rank name in Ok (name, t)) (seq 0 n).

(** min over the static policies, lines 253-254: the first one with the least time. min of nothing throws. *)
Definition best_static (times : list (bytes * f64)) : outcome (bytes * f64) :=
  match times with
  | [] => Throw
  | x :: r => Ok (fold_left (fun best y => if lt64 (snd y) (snd best) then y else best) r x)
  end.

(** sum(opt['xtime']), lines 252 and 257; [opt] are rows as WriteOptM has them. *)
Definition opt_time (sorted : list opt_row) : f64 := fold_left add64 (map o_time (drop_duplicates sorted)) zero64.
