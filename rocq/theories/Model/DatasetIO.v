(** Text format of datasets: Dataset::store and Dataset::load, src/Dataset.cpp lines 94-174. *)
From Coq Require Import List ZArith Bool Ascii String.
From Verif Require Import Model.Base Model.Float Model.Decimal Model.ParserM Model.DatasetM.
Import ListNotations.
Open Scope Z_scope.

(** One line of the loop of Dataset::store, src/Dataset.cpp lines 98-110. *)
Definition store_entry (idx : Z) (e : key * f64) : bytes :=
  let '((features, policy), metric) := e in
  $"  " ++ print_Z idx ++ $": { features: [ "
  ++ List.concat (map (fun f => print_float f ++ $",") features)
  ++ $" ], "
  ++ $"policy: " ++ print_Z policy ++ $", "
  ++ $"xtime: " ++ print_float metric
  ++ $" }," ++ [nl].

(** The loop of Dataset::store, src/Dataset.cpp lines 98-110. *)
Fixpoint store_entries (idx : Z) (d : dataset) : bytes :=
  match d with
  | [] => []
  | e :: r => store_entry idx e ++ store_entries (idx + 1) r
  end.

(** Dataset::store, src/Dataset.cpp lines 94-112. *)
Definition ds_store (d : dataset) : bytes :=
  $"data: {" ++ [nl] ++ store_entries 0 d ++ $"}" ++ [nl].

(** The inner features loop, src/Dataset.cpp lines 141-146. *)
Fixpoint load_features (fuel : nat) (acc : list f32) (p : parser) : outcome (list f32 * parser) :=
  match fuel with
  | O => Fuel
  | S fuel' =>
      let* p := get_next_token p in
      if token_is p ($"],") then Ok (acc, p)
      else
        let* (x, p) := parse_float p in
        let* p := parse_expected ($",") p in
        load_features fuel' (acc ++ [x]) p
  end.

(** One record, src/Dataset.cpp lines 129-160: the current token is the record's index. *)
Definition load_record (p : parser) : outcome (list f32 * Z * f64 * parser) :=
  let* (_, p) := parse_int p in
  let* p := parse_expected ($":") p in
  let* p := expect_next ($"{") p in
  let* p := expect_next ($"features:") p in
  let* p := expect_next ($"[") p in
  let* (fs, p) := load_features (S (List.length (p_in p))) [] p in
  let* p := expect_next ($"policy:") p in
  let* p := get_next_token p in
  let* (policy, p) := parse_int p in
  let* p := parse_expected ($",") p in
  let* p := expect_next ($"xtime:") p in
  let* p := get_next_token p in
  let* (xtime, p) := parse_double p in
  let* p := expect_next ($"},") p in
  Ok (fs, policy, xtime, p).

(** The outer loop, src/Dataset.cpp lines 123-173. *)
Fixpoint load_records (fuel : nat) (d : dataset) (p : parser) : outcome (dataset * parser) :=
  match fuel with
  | O => Fuel
  | S fuel' =>
      let* p := get_next_token p in
      if token_is p ($"}") then Ok (d, p)
      else
        let* (fs, policy, xtime, p) := load_record p in
        let* d' := ds_insert d fs policy xtime in
        load_records fuel' d' p
  end.

(** Dataset::load, src/Dataset.cpp lines 114-174: inserts into the dataset [d]; returns the unread input. *)
Definition ds_load (d : dataset) (input : bytes) : outcome (dataset * bytes) :=
  let* p := expect_next ($"data:") (new_parser input) in
  let* p := expect_next ($"{") p in
  let* (d', p) := load_records (S (List.length (p_in p))) d p in
  Ok (d', p_in p).
