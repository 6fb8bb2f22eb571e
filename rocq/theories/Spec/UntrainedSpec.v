(** Traces of a run that explores without a tree, as run-exhaustive.py makes one. *)
From Coq Require Import List ZArith Bool Ascii String Permutation.
From Verif Require Import Model.Base Model.Float Model.Decimal Model.DatasetM Model.RuntimeM Model.CreateDatasetM Model.AnalyzeM
  Spec.DatasetSpec Spec.RuntimeSpec Spec.CreateDatasetSpec Spec.AnalyzeSpec Spec.AccuracySpec.
Import ListNotations.

(** A directory with the traces of a run with the model [ex], and other files. *)
Record explored_only (ex : bytes) (ts : list trace) (dir : list (bytes * bytes)) : Prop := {
  xo_some : ts <> [];
  xo_regular : Forall regular ts;
  xo_named : Forall (fun t => tr_model t = ex) ts;
  xo_dir : exists others, Permutation dir (map (file_under ex) ts ++ others) /\ Forall (fun f => ~ contains (ex ++ $"-") (fst f)) others
}.
