(** C140: the files of the traces of regions. *)
From Coq Require Import ZArith Bool Ascii String Lia List.
From Verif Require Import Model.Base Model.PolicyModelsM Model.ConfigM Model.RuntimeM Model.TraceFileM
  Spec.TraceFileSpec Proofs.RuntimeExamples Proofs.TraceFileFacts Proofs.TraceFileExamples.
Import ListNotations.

(** A region that alone writes to its file: whatever was in the file before, and whenever text is handed over, the file holds the
    beginning of its trace, and all of it once the region is destroyed. *)
Theorem C140_own : forall P c files rank os w es fs r R,
  truthy (cf_trace_csv c) = true ->
  traced_run P (mkWorld c rank [] [] 0 files) os = Ok (w, es) -> buffered es fs -> nth_error (w_regions w) r = Some R ->
  sole_writer P (mkWorld c rank [] [] 0 files) os r (trace_path w R) ->
  (exists n, holds (disk_after files fs) (trace_path w R) = Some (firstn n (r_trace R))) /\
  (r_alive R = false -> holds (disk_after files fs) (trace_path w R) = Some (r_trace R)).
Proof. exact own_file. Qed.
(** A region of the same name was there before, and its trace is gone. *)
Example C140_own_example : exists w es R0 R, traced_run example_platform (start_world traced_settings []) one_after_another = Ok (w, es) /\
  nth_error (w_regions w) 0 = Some R0 /\ nth_error (w_regions w) 1 = Some R /\ r_alive R = false /\ trace_path w R0 = trace_path w R /\
  sole_writer example_platform (start_world traced_settings []) one_after_another 1 (trace_path w R) /\
  r_trace R0 = trace_lines ["0 Static,1 r 0 3 1 4"; "0 Static,1 r 1 4 1 1"]%string /\
  holds (disk_after [] es) (trace_path w R) = Some (trace_lines ["0 Static,1 r 0 5 1 7"]%string).
Proof.
  destruct after_another as (w & es & E & H0 & H1 & _). apply region_is_true in H0. destruct H0 as (R0 & E0 & A0 & P0 & T0). apply region_is_true in H1. destruct H1 as (R & E1 & A1 & P1 & T1).
  exists w, es, R0, R. rewrite P0, P1, <- T1. repeat (split; [first [assumption|reflexivity]|]). split; [exact after_another_alone|]. split; [assumption|]. rewrite <- P1.
  apply (proj2 (C140_own example_platform traced_settings [] 0%Z one_after_another w es es 1%nat R eq_refl E (buffered_refl es) E1 ltac:(rewrite P1; exact after_another_alone)) A1).
Qed.
Print Assumptions C140_own.

(** Whoever shares a file: each of its bytes is the byte at that place of the trace of one of them, or NUL. *)
Theorem C140_shared : forall P c files rank os w es fs p,
  truthy (cf_trace_csv c) = true -> traced_run P (mkWorld c rank [] [] 0 files) os = Ok (w, es) -> buffered es fs ->
  (exists r R, nth_error (w_regions w) r = Some R /\ trace_path w R = p) ->
  exists text, holds (disk_after files fs) p = Some text /\
    forall k b, nth_error text k = Some b -> b = nul \/ exists r R, nth_error (w_regions w) r = Some R /\ trace_path w R = p /\ nth_error (r_trace R) k = Some b.
Proof. exact shared_bytes. Qed.
(** NUL bytes do come about. *)
Example C140_shared_example : exists w es fs text R, traced_run example_platform (start_world traced_settings []) (both_there ++ first_ends) = Ok (w, es) /\ buffered es fs /\
  nth_error (w_regions w) 0 = Some R /\ trace_path w R = shared_path /\ holds (disk_after [] fs) shared_path = Some text /\ nth_error text 0 = Some nul /\ In "S"%char text.
Proof.
  destruct hole_run as (w & es & text & E & H0 & _ & HT & ->). apply region_is_true in H0. destruct H0 as (R0 & E0 & A0 & P0 & T0).
  exists w, es, (early_flush es). eexists. exists R0. split; [exact E|]. split; [apply early_flush_buffered|]. split; [exact E0|]. split; [exact P0|]. split; [exact HT|]. split; [reflexivity|].
  apply in_or_app. right. cbn. tauto.
Qed.
Print Assumptions C140_shared.

(** Two regions at the same time with one file, text handed over only at the end: the one destroyed last overwrites the other from
    the beginning, and what is longer of the first stays behind it. *)
Theorem C140_overwritten : forall P c files rank a b d w es i j Ri Rj p w0 xs w1 ys,
  truthy (cf_trace_csv c) = true -> i <> j ->
  traced_run P (mkWorld c rank [] [] 0 files) (a ++ b ++ d) = Ok (w, es) ->
  nth_error (w_regions w) i = Some Ri -> nth_error (w_regions w) j = Some Rj -> trace_path w Ri = p -> trace_path w Rj = p ->
  (forall k R, nth_error (w_regions w) k = Some R -> trace_path w R = p -> k = i \/ k = j) ->
  run P (mkWorld c rank [] [] 0 files) a = Ok (w0, xs) -> (exists R, nth_error (w_regions w0) i = Some R /\ r_alive R = true) -> (exists R, nth_error (w_regions w0) j = Some R /\ r_alive R = true) ->
  run P w0 b = Ok (w1, ys) -> (exists R, nth_error (w_regions w1) i = Some R /\ r_alive R = false) -> (exists R, nth_error (w_regions w1) j = Some R /\ r_alive R = true) ->
  r_alive Rj = false ->
  holds (disk_after files es) p = Some (r_trace Rj ++ skipn (List.length (r_trace Rj)) (r_trace Ri)).
Proof. exact overwritten. Qed.
(** The execution of the first region before the second came is lost; one of its rows follows that of the second. *)
Example C140_overwritten_example : exists w es Ri Rj, traced_run example_platform (start_world traced_settings []) (both_there ++ first_ends ++ second_ends) = Ok (w, es) /\
  nth_error (w_regions w) 0 = Some Ri /\ nth_error (w_regions w) 1 = Some Rj /\ trace_path w Ri = shared_path /\ trace_path w Rj = shared_path /\ r_alive Rj = false /\
  (exists w0 xs w1 ys, run example_platform (start_world traced_settings []) both_there = Ok (w0, xs) /\ alive_is w0 0 true = true /\ alive_is w0 1 true = true /\
    run example_platform w0 first_ends = Ok (w1, ys) /\ alive_is w1 0 false = true /\ alive_is w1 1 true = true) /\
  r_trace Ri = trace_lines ["0 Static,1 r 0 3 1 4"; "0 Static,1 r 1 4 1 1"]%string /\ r_trace Rj = trace_lines ["0 Static,1 r 0 5 1 7"]%string /\
  holds (disk_after [] es) shared_path = Some (trace_lines ["0 Static,1 r 0 5 1 7"; "0 Static,1 r 1 4 1 1"]%string).
Proof.
  destruct both_end_run as (w & es & E & H0 & H1 & _ & H). apply region_is_true in H0. destruct H0 as (R0 & E0 & A0 & P0 & T0). apply region_is_true in H1. destruct H1 as (R & E1 & A1 & P1 & T1).
  exists w, es, R0, R. repeat (split; [assumption|]). split; [exact both_there_steps|]. split; [exact T0|]. split; [exact T1|exact H].
Qed.
Print Assumptions C140_overwritten.

(** Files that are not of a region's trace, and all files without APOLLO_TRACE_CSV, are left as they are. *)
Theorem C140_others : forall P c files rank os w es fs p,
  traced_run P (mkWorld c rank [] [] 0 files) os = Ok (w, es) -> buffered es fs ->
  truthy (cf_trace_csv c) = false \/ (forall r R, nth_error (w_regions w) r = Some R -> trace_path w R <> p) ->
  holds (disk_after files fs) p = file_find p files.
Proof. exact other_files. Qed.
Example C140_others_example : exists w es, traced_run example_platform (start_world traced_settings [($"notes", $"old")]) one_after_another = Ok (w, es) /\ es <> [] /\
  (forall r R, nth_error (w_regions w) r = Some R -> trace_path w R <> $"notes").
Proof. exact untouched_run. Qed.
Print Assumptions C140_others.
