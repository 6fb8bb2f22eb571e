(** The names of the files of the library, as its users see them. *)
From Coq Require Import ZArith String List.
From Verif Require Import Model.Base Model.Decimal Model.ConfigM Model.RuntimeM.
Import ListNotations.
Open Scope Z_scope.

(** The data of a region. *)
Definition data_file (c : config) (region : bytes) : bytes :=
  cf_output_dir c ++ $"/" ++ cf_datasets_dir c ++ $"/Dataset-" ++ region ++ $".yaml".

(** The newest model of a region, and its model of a step. *)
Definition newest_file (c : config) (rank : Z) (model region : bytes) : bytes :=
  cf_output_dir c ++ $"/" ++ cf_models_dir c ++ $"/" ++ model ++ $"-latest-rank-" ++ print_Z rank ++ $"-" ++ region ++ $".yaml".
Definition step_file (c : config) (rank step : Z) (model region : bytes) : bytes :=
  cf_output_dir c ++ $"/" ++ cf_models_dir c ++ $"/" ++ model ++ $"-step-" ++ print_Z step ++ $"-rank-" ++ print_Z rank ++ $"-" ++ region ++ $".yaml".

(** Everything the library writes. *)
Definition written_file (c : config) (rank : Z) (path : bytes) : Prop :=
  (exists step model region, path = step_file c rank step model region) \/
  (exists model region, path = newest_file c rank model region) \/
  (exists region, path = data_file c region) \/
  (exists step region, path = $"step-" ++ print_Z step ++ $"-rank-" ++ print_Z rank ++ $"-" ++ region ++ $"-best_policies.txt") \/
  path = $"rank-" ++ print_Z rank ++ $"-policies.txt" \/
  path = cf_output_dir c ++ $"/" ++ $"apollo_exec_info.csv".
