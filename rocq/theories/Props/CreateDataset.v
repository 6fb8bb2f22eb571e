(** C132: what create-dataset.py makes of the traces of several regions. *)
From Coq Require Import List ZArith Bool Ascii String.
From Verif Require Import Model.Base Model.Float Model.Decimal Model.DatasetM Model.RuntimeM Model.CreateDatasetM Spec.DatasetSpec Spec.RuntimeSpec Spec.CreateDatasetSpec
  Proofs.CreateDatasetFacts Proofs.CreateDatasetExamples.
From Coq Require Import List.
Import ListNotations.

(** A region with at most as many features as the region of the first trace file: its data set holds exactly its executions. *)
Theorem C132_faithful : forall first ts r k, Forall readable (first :: ts) ->
  Forall (fun t => regular t /\ tr_features t = k) (traces_of r (first :: ts)) -> (k <= tr_features first)%nat ->
  create_none (map trace_text (first :: ts)) r = Ok (map (fun e => (feature_texts e, policy_text e, metric_text e)) (entries_of r (first :: ts))).
Proof. exact records_faithful. Qed.
Example C132_faithful_example : create_none (map trace_text [wide; narrow]) ($"narrow") = Ok [([$"7"], $"0", $"3"); ([$"7"], $"1", $"4")].
Proof.
  rewrite (C132_faithful wide [narrow] ($"narrow") 1 (pair_readable _ _ wide_regular narrow_regular)); [reflexivity| |repeat constructor].
  apply Forall_cons; [exact (conj narrow_regular eq_refl)|apply Forall_nil].
Qed.
Print Assumptions C132_faithful.

(** A region with more features than that of the first trace file: policy and metric come out as features. *)
Theorem C132_displaced : forall first ts r k, Forall readable (first :: ts) ->
  Forall (fun t => regular t /\ tr_features t = k) (traces_of r (first :: ts)) -> (tr_features first < k)%nat ->
  create_none (map trace_text (first :: ts)) r = Ok (map (fun e => (displaced (tr_features first) e, policy_text e, metric_text e)) (entries_of r (first :: ts))) /\
  forall e, In e (entries_of r (first :: ts)) -> nth_error (displaced (tr_features first) e) (tr_features first) = Some (policy_text e).
Proof. exact records_displaced. Qed.
Example C132_displaced_example : create_none (map trace_text [narrow; wide]) ($"wide") = Ok [([$"5"; $"0"], $"0", $"20"); ([$"5"; $"1"], $"1", $"10")].
Proof.
  destruct (C132_displaced narrow [wide] ($"wide") 2 (pair_readable _ _ narrow_regular wide_regular)) as [H _]; [|repeat constructor|rewrite H; reflexivity].
  apply Forall_cons; [exact (conj wide_regular eq_refl)|apply Forall_nil].
Qed.
Print Assumptions C132_displaced.

(** A line with too few features or a NaN metric among the region's: no data set comes out. *)
Theorem C132_spoiled : forall first ts r t e, Forall readable (first :: ts) -> In t (traces_of r (first :: ts)) -> In e (tr_entries t) -> spoiled t e ->
  create_none (map trace_text (first :: ts)) r = Throw.
Proof. exact spoiled_throws. Qed.
Example C132_spoiled_example : create_none (map trace_text [wide; lame]) ($"lame") = Throw.
Proof.
  apply (C132_spoiled wide [lame] ($"lame") lame (entry_of 2 1 [5] 1 10)%Z); [|left; reflexivity|right; left; reflexivity|exact lame_spoiled].
  apply Forall_cons; [apply regular_readable, wide_regular|]. apply Forall_cons; [exact lame_readable|apply Forall_nil].
Qed.
Print Assumptions C132_spoiled.

(** Directories stand for their files one after another; files named beside directories are ignored. *)
Theorem C132_directories : forall files dirs, dirs <> [] -> Forall (fun d => exists t, read_tracefiles d = Ok t) dirs ->
  (files = [] \/ exists t, read_tracefiles files = Ok t) -> read_data files dirs = read_data (List.concat dirs) [].
Proof. exact directories. Qed.
Example C132_directories_example :
  (let* d := read_data [trace_text lame] [[trace_text narrow]; [trace_text wide]] in region_records d ($"wide")) = Ok [([$"5"; $"0"], $"0", $"20"); ([$"5"; $"1"], $"1", $"10")].
Proof.
  rewrite C132_directories; [exact C132_displaced_example|discriminate| |right; eexists; reflexivity].
  repeat (apply Forall_cons; [eexists; reflexivity|]). apply Forall_nil.
Qed.
Print Assumptions C132_directories.
