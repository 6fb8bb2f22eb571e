(** src/python/analysis/plot-trace.py: the bars of the executions of a region and their labels.

    pandas reads the trace as in CreateDatasetM. seaborn's countplot is taken to draw, for every distinct f0 in rising order, a
    container with a bar for every distinct policy in rising order, as high as the number of rows with both. What it draws for a
    part without rows is not modelled ([Fuel]). *)
From Coq Require Import List ZArith Bool Ascii String.
From Flocq Require Import BinarySingleNaN.
From Verif Require Import Model.Base Model.Float Model.CreateDatasetM Model.AnalyzeM.
Import ListNotations.

(** The group of re.match('trace-(.*?)-.*', file) after the first dash, plot-trace.py lines 50-51: up to the next dash; a dot
    stands for no end of line. *)
Fixpoint up_to_dash (s : bytes) : option bytes :=
  match s with
  | [] => None
  | c :: r =>
      if Ascii.eqb c "-" then Some []
      else if Ascii.eqb c nl then None
      else option_map (cons c) (up_to_dash r)
  end.
(** re.match, lines 50-51: the text must begin as the pattern does. *)
Fixpoint after (w s : bytes) : option bytes :=
  match w, s with
  | [], _ => Some s
  | c :: w', d :: s' => if Ascii.eqb c d then after w' s' else None
  | _ :: _, [] => None
  end.
(** model_name, lines 50-51; m.group of no match throws. *)
Definition plotted_model (file : bytes) : outcome bytes :=
  match after ($"trace-") file with
  | None => Throw
  | Some s => match up_to_dash s with Some m => Ok m | None => Throw end
  end.
(** The file of the plots, line 84. *)
Definition plot_file (model : bytes) : bytes := model ++ $"-plot.pdf".
(** The last line of the title, line 75. *)
Definition unit_title : bytes := $"Bar labels are mean execution times in ms".

(** A row of the trace: f0, policy and xtime, line 25. *)
Record plot_row := mkPlot { p_feature : f64; p_policy : f64; p_time : f64 }.
(** The columns used, lines 13-25; a missing column throws. *)
Definition plot_rows (num : bytes -> f64) (t : table) : outcome (list plot_row) :=
  if has_column (columns t) ($"f0") && has_column (columns t) ($"policy") && has_column (columns t) ($"xtime")
  then Ok (map (fun row => mkPlot (cell_number num (at_column (columns t) row ($"f0"))) (cell_number num (at_column (columns t) row ($"policy")))
                             (cell_number num (at_column (columns t) row ($"xtime")))) (rows t))
  else Throw.

(** unique(), lines 16 and 18. *)
Fixpoint distinct (l : list f64) : list f64 :=
  match l with [] => [] | x :: r => x :: filter (fun y => negb (eq64 y x)) (distinct r) end.
(** sort(), lines 17 and 19. *)
Fixpoint insert_number (x : f64) (l : list f64) : list f64 :=
  match l with [] => [x] | y :: r => if lt64 y x then y :: insert_number x r else x :: l end.
(** sort(), lines 17 and 19. *)
Fixpoint sort_numbers (l : list f64) : list f64 := match l with [] => [] | x :: r => insert_number x (sort_numbers r) end.
(** policies and features, lines 16-19. *)
Definition plot_policies (rows : list plot_row) : list f64 := sort_numbers (distinct (map p_policy rows)).
(** lines 18-19. *)
Definition plot_features (rows : list plot_row) : list f64 := sort_numbers (distinct (map p_feature rows)).

Section Labels.
(** np.mean, line 32, and the format '%.2f', line 34. *)
Variable mean : list f64 -> f64.
Variable format : f64 -> bytes.

(** The label of a policy and a feature, lines 25-34. *)
Definition bar_text (rows : list plot_row) (policy feature : f64) : bytes :=
  let xtimes := filter (fun r => eq64 (p_policy r) policy) (filter (fun r => eq64 (p_feature r) feature) rows) in
  match xtimes with
  | [] => $"0"
  | _ => format (mul64 (mean (map p_time xtimes)) (f64_of_Z 1000000))
  end.
(** bar_labels, lines 15 and 23-34. *)
Definition bar_labels (rows : list plot_row) : list bytes :=
  flat_map (fun policy => map (bar_text rows policy) (plot_features rows)) (plot_policies rows).
(** l[i::n] for a positive n, line 38. *)
Fixpoint stride (i n : nat) (l : list bytes) : list bytes :=
  match l with
  | [] => []
  | x :: r => match i with O => x :: stride (n - 1) n r | S i' => stride i' n r end
  end.

(** A bar: its feature, its policy and its height. *)
Definition bar : Type := f64 * f64 * nat.
(** countplot(data, x='policy', hue='f0'), line 13. *)
Definition plot_containers (rows : list plot_row) : list (list bar) :=
  map (fun f => map (fun p => (f, p, List.length (filter (fun r => eq64 (p_policy r) p && eq64 (p_feature r) f) rows))) (plot_policies rows)) (plot_features rows).
(** plot_bars, lines 12-40: the bars with their labels. *)
Definition plot_bars (rows : list plot_row) : outcome (list (bar * bytes)) :=
  match rows with
  | [] => Fuel
  | _ => Ok (flat_map (fun ic => combine (snd ic) (stride (fst ic) (List.length (plot_features rows)) (bar_labels rows)))
               (combine (seq 0 (List.length (plot_containers rows))) (plot_containers rows)))
  end.

(** Where a slice begins or ends in a list of [n] rows, lines 61-63: negative numbers count from the end. *)
Definition slice_position (n : nat) (k : Z) : nat := if (k <? 0)%Z then Z.to_nat (Z.of_nat n + k) else Nat.min n (Z.to_nat k).
(** main, lines 50-84: the file of the plots and the bars of both. *)
Definition plot_trace (num : bytes -> f64) (file text : bytes) (ntraining : Z) (drop_first : bool) :
  outcome (bytes * list (bar * bytes) * list (bar * bytes)) :=
  let* model := plotted_model file in
  let* t := read_csv text in
  match t with
  | None => Throw
  | Some t =>
      let* all := plot_rows num t in
      let cut := slice_position (List.length all) ntraining in
      let* training := plot_bars (skipn (if drop_first then 1 else 0) (firstn cut all)) in
      let* tuned := plot_bars (skipn cut all) in
      Ok (plot_file model, training, tuned)
  end.
End Labels.
