(** src/python/modeling/create-dataset.py: from traces to data sets.

    Tables are those of pandas: named columns, rows of cells, a cell being a text or missing. Simplified: cells stay texts, where
    pandas makes numbers of them and str() prints these; quotation marks are ordinary characters; a line with more fields than
    the header, which pandas refuses or cuts depending on its place, is undefined; names of regions that pandas reads as
    numbers are taken as texts. *)
From Coq Require Import List ZArith Bool Ascii String.
From Verif Require Import Model.Base Model.Float Model.Decimal.
Import ListNotations.

(** A cell of a pandas DataFrame; create-dataset.py line 123. *)
Definition cell := option bytes.
(** A pandas DataFrame, create-dataset.py lines 113-142: every row has a cell for each column. *)
Record table := mkTable { columns : list bytes; rows : list (list cell) }.

(** The parts of a text between the occurrences of a character (pandas.read_csv, line 123). *)
Fixpoint split_at (c : ascii) (s : bytes) : list bytes :=
  match s with
  | [] => [[]]
  | x :: r =>
      if Ascii.eqb x c then [] :: split_at c r
      else match split_at c r with h :: t => (x :: h) :: t | [] => [[x]] end
  end.

(** The fields pandas.read_csv takes for missing values unless told otherwise (line 123). *)
Definition missing (s : bytes) : bool :=
  existsb (bytes_eqb s) [$""; $"#N/A"; $"#N/A N/A"; $"#NA"; $"-1.#IND"; $"-1.#QNAN"; $"-NaN"; $"-nan"; $"1.#IND"; $"1.#QNAN";
    $"<NA>"; $"N/A"; $"NA"; $"NULL"; $"NaN"; $"None"; $"n/a"; $"nan"; $"null"].
(** A field as a cell, line 123. *)
Definition cell_of (s : bytes) : cell := if missing s then None else Some s.

(** pandas.read_csv(f, sep=' ', header=0, index_col=False), line 123. Empty lines are skipped, short ones filled with missing
    cells. [None]: EmptyDataError. *)
Definition read_csv (s : bytes) : outcome (option table) :=
  match filter (fun l => negb (bytes_eqb l [])) (split_at nl s) with
  | [] => Ok None
  | h :: r =>
      let cols := split_at " " h in
      let fields := map (split_at " ") r in
      if forallb (fun l => Nat.leb (List.length l) (List.length cols)) fields
      then Ok (Some (mkTable cols (map (fun l => map cell_of l ++ repeat None (List.length cols - List.length l)) fields)))
      else UB
  end.

(** The cell of a row in the column of a name; missing if there is no such column. src/python/modeling/create-dataset.py lines 31-33, 166, 172. *)
Fixpoint at_column (cols : list bytes) (row : list cell) (c : bytes) : cell :=
  match cols, row with
  | d :: cols', x :: row' => if bytes_eqb c d then x else at_column cols' row' c
  | _, _ => None
  end.
(** Whether there is a column of a name; lines 31-33, 129. *)
Definition has_column (cols : list bytes) (c : bytes) : bool := existsb (bytes_eqb c) cols.

(** pandas.concat(tables, ignore_index=True, sort=False), lines 129 and 140: columns in the order of their first appearance. *)
Definition union (cs ds : list bytes) : list bytes := cs ++ filter (fun d => negb (has_column cs d)) ds.
(** src/python/modeling/create-dataset.py lines 129 and 140. *)
Definition concat_tables (ts : list table) : table :=
  let cols := fold_left union (map columns ts) [] in
  mkTable cols (flat_map (fun t => map (fun row => map (at_column (columns t) row) cols) (rows t)) ts).

(** read_tracefiles, lines 113-131. Files without data are skipped (lines 124-125); concat of nothing throws. *)
Fixpoint read_all (files : list bytes) : outcome (list table) :=
  match files with
  | [] => Ok []
  | s :: r =>
      let* t := read_csv s in
      let* ts := read_all r in
      Ok (match t with Some t => t :: ts | None => ts end)
  end.
(** read_tracefiles, lines 113-131. *)
Definition read_tracefiles (files : list bytes) : outcome table :=
  let* ts := read_all files in
  match ts with [] => Throw | _ => Ok (concat_tables ts) end.

(** read_tracedirs, lines 134-142: the files of each directory, in the order glob gives them. *)
Fixpoint read_tracedirs (dirs : list (list bytes)) (data : table) : outcome table :=
  match dirs with
  | [] => Ok data
  | d :: r => let* t := read_tracefiles d in read_tracedirs r (concat_tables [data; t])
  end.

(** src/python/modeling/create-dataset.py lines 156-163: directories, if given, take the place of files. *)
Definition read_data (files : list bytes) (dirs : list (list bytes)) : outcome table :=
  match files, dirs with
  | [], [] => Throw
  | _, [] => read_tracefiles files
  | _, _ => let* _ := (match files with [] => Ok (mkTable [] []) | _ => read_tracefiles files end) in read_tracedirs dirs (mkTable [] [])
  end.

(** Equality of cells; a missing one equals nothing. src/python/modeling/create-dataset.py line 172. *)
Definition cell_eqb (a b : cell) : bool :=
  match a, b with Some x, Some y => bytes_eqb x y | _, _ => false end.

(** data.loc[data['region'] == r], lines 172-173. *)
Definition of_region (t : table) (r : bytes) : table :=
  mkTable (columns t) (filter (fun row => cell_eqb (at_column (columns t) row ($"region")) (Some r)) (rows t)).
(** dropna(axis='columns'), line 173: columns with a missing cell go. *)
Definition dropna (t : table) : table :=
  let cols := filter (fun c => forallb (fun row => match at_column (columns t) row c with Some _ => true | None => false end) (rows t)) (columns t) in
  mkTable cols (map (fun row => map (at_column (columns t) row) cols) (rows t)).
(** reset_index(), line 173: the row numbers become the first column; here without their values, which nothing reads. *)
Definition reset_index (t : table) : table := mkTable ($"index" :: columns t) (map (fun row => Some ($"0") :: row) (rows t)).

(** list(data_per_region.columns[5:-2]), lines 28, 43, 64 and 87. *)
Definition feature_cols (t : table) : list bytes :=
  firstn (List.length (columns t) - 7) (skipn 5 (columns t)).

(** What a row of a data set holds: features, policy and time. src/python/modeling/create-dataset.py lines 12-21. *)
Definition record := (list bytes * bytes * bytes)%type.

(** row[feature_cols], row['policy'] and row['xtime'], lines 31-33. A name that is not a column is a KeyError. *)
Fixpoint cells_of (l : list cell) : outcome (list bytes) :=
  match l with
  | [] => Ok []
  | Some x :: r => let* xs := cells_of r in Ok (x :: xs)
  | None :: _ => Throw
  end.
(** src/python/modeling/create-dataset.py lines 31-33. *)
Definition record_of (t : table) (row : list cell) : outcome record :=
  let* f := cells_of (map (at_column (columns t) row) (feature_cols t)) in
  match at_column (columns t) row ($"policy"), at_column (columns t) row ($"xtime") with
  | Some p, Some x => Ok (f, p, x)
  | _, _ => Throw
  end.

(** agg_by_none, lines 24-36, for the rows of one region (lines 172-176). *)
Fixpoint map_all {A B} (f : A -> outcome B) (l : list A) : outcome (list B) :=
  match l with
  | [] => Ok []
  | x :: r => let* y := f x in let* ys := map_all f r in Ok (y :: ys)
  end.
(** src/python/modeling/create-dataset.py lines 172-176. *)
Definition region_records (data : table) (r : bytes) : outcome (list record) :=
  let t := reset_index (dropna (of_region data r)) in map_all (record_of t) (rows t).

(** The data set of a region made from trace files without aggregation, lines 156-186. *)
Definition create_none (files : list bytes) (r : bytes) : outcome (list record) :=
  let* data := read_data files [] in region_records data r.

(** data['region'].unique().tolist(), line 166: values in the order of their first appearance, a missing one among them. *)
Definition cell_same (a b : cell) : bool :=
  match a, b with Some x, Some y => bytes_eqb x y | None, None => true | _, _ => false end.
(** src/python/modeling/create-dataset.py line 166. *)
Fixpoint unique (l : list cell) : list cell :=
  match l with [] => [] | x :: r => x :: filter (fun y => negb (cell_same x y)) (unique r) end.
(** src/python/modeling/create-dataset.py line 166. *)
Definition regions (data : table) : list cell := unique (map (fun row => at_column (columns data) row ($"region")) (rows data)).

(** The loop of lines 170-186 without aggregation: the data sets written, and how it ends. For a missing region there are no
    rows, and the name of the file cannot be made: 'Dataset-' + nan is a TypeError (line 185). *)
Fixpoint write_sets (data : table) (rs : list cell) : list (bytes * list record) * outcome unit :=
  match rs with
  | [] => ([], Ok tt)
  | None :: _ => ([], Throw)
  | Some r :: rest =>
      match region_records data r with
      | Ok l => let '(written, o) := write_sets data rest in ((r, l) :: written, o)
      | Throw => ([], Throw)
      | Abort => ([], Abort)
      | UB => ([], UB)
      | Fuel => ([], Fuel)
      end
  end.

(** main, lines 145-186, with --agg none. *)
Definition create (files : list bytes) (dirs : list (list bytes)) : list (bytes * list record) * outcome unit :=
  match read_data files dirs with
  | Ok data => if has_column (columns data) ($"region") then write_sets data (regions data) else ([], Throw)
  | Throw => ([], Throw)
  | Abort => ([], Abort)
  | UB => ([], UB)
  | Fuel => ([], Fuel)
  end.

(** The trace of all regions that Apollo writes beside those of the regions, as <traces>/trace-rank-<rank>.csv; its header,
    src/Apollo.cpp lines 226-235. *)
Definition global_header : bytes := $"# timestamp (us), region, idx, model, policy" ++ [nl].
(** An execution: time stamp, region, index, model, policy. src/Region.cpp lines 511-515. *)
Record global_entry := mkGlobal { ge_time : Z; ge_region : bytes; ge_index : Z; ge_model : bytes; ge_policy : Z }.
(** Its line, src/Region.cpp lines 513-515. *)
Definition global_line (g : global_entry) : bytes :=
  print_Z (ge_time g) ++ $" " ++ ge_region g ++ $" " ++ print_Z (ge_index g) ++ $" " ++ ge_model g ++ $" " ++ $" " ++ print_Z (ge_policy g) ++ [nl].
(** The file, src/Apollo.cpp lines 226-235 and src/Region.cpp lines 513-515. *)
Definition global_text (l : list global_entry) : bytes := global_header ++ List.concat (map global_line l).
