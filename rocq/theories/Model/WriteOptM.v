(** src/python/analysis/analyze-traces.py --write-opt: from the traces of all static policies to the file of best policies.

    A row holds the numbers pandas reads; features and the name of the model play no part here. *)
From Coq Require Import List ZArith Bool Ascii String.
From Verif Require Import Model.Base Model.Float Model.Decimal.
Import ListNotations.

(** A row of data_map['Static']: rankid, region, idx, policy, xtime; analyze-traces.py lines 169-175. *)
Record opt_row := mkOpt { o_rank : Z; o_region : bytes; o_idx : Z; o_policy : Z; o_time : f64 }.

(** data_map['Static'].loc[rankid == rank], line 230. *)
Definition of_rank (rank : Z) (rows : list opt_row) : list opt_row := filter (fun r => (o_rank r =? rank)%Z) rows.

(** sort_values(by=['xtime']), line 231: a rearrangement in which no row has a smaller time than one before it. How rows with
    equal times are arranged is not fixed: pandas sorts with quicksort. *)
Fixpoint in_order (l : list opt_row) : bool :=
  match l with [] => true | x :: r => forallb (fun y => negb (lt64 (o_time y) (o_time x))) r && in_order r end.

(** Rows with the same region and idx, line 232. *)
Definition same_execution (a b : opt_row) : bool := bytes_eqb (o_region a) (o_region b) && (o_idx a =? o_idx b)%Z.
(** drop_duplicates(['region', 'idx'], keep='first'), line 232. *)
Fixpoint drop_duplicates (l : list opt_row) : list opt_row :=
  match l with [] => [] | x :: r => x :: filter (fun y => negb (same_execution x y)) (drop_duplicates r) end.

(** sort_index(), line 234, on the rows of one region: by idx. *)
Fixpoint insert_idx (x : opt_row) (l : list opt_row) : list opt_row :=
  match l with [] => [x] | y :: r => if (o_idx x <=? o_idx y)%Z then x :: l else y :: insert_idx x r end.
(** src/python/analysis/analyze-traces.py line 234. *)
Fixpoint sort_idx (l : list opt_row) : list opt_row := match l with [] => [] | x :: r => insert_idx x (sort_idx r) end.

(** ','.join, line 249. *)
Fixpoint join_commas (l : list bytes) : bytes :=
  match l with [] => [] | [x] => x | x :: r => x ++ $"," ++ join_commas r end.

(** opt.loc[region], lines 232-234 and 247; [sorted] is what line 231 gives. *)
Definition opt_rows (sorted : list opt_row) (region : bytes) : list opt_row :=
  sort_idx (filter (fun r => bytes_eqb (o_region r) region) (drop_duplicates sorted)).
(** The contents of opt-<region>-rank-<rank>.txt, lines 243-249. *)
Definition opt_file (sorted : list opt_row) (region : bytes) : bytes := join_commas (map (fun r => print_Z (o_policy r)) (opt_rows sorted region)).
(** The regions files are written for, lines 245-246, each once. *)
Definition opt_regions (sorted : list opt_row) : list bytes := nodup (list_eq_dec ascii_dec) (map o_region (drop_duplicates sorted)).
