(** C142: the plots of plot-trace.py. *)
From Coq Require Import List ZArith Bool Ascii String.
From Flocq Require Import BinarySingleNaN.
From Verif Require Import Model.Base Model.Float Model.Decimal Model.DatasetM Model.RuntimeM Model.CreateDatasetM Model.AnalyzeM Model.PlotTraceM
  Spec.DatasetSpec Spec.RuntimeSpec Spec.CreateDatasetSpec Spec.PlotTraceSpec Proofs.PlotTraceFacts Proofs.AnalyzeExamples Proofs.PlotTraceExamples.
From Coq Require Import List.
Import ListNotations.
Open Scope nat_scope.

(** The plots of a trace, in a file named after what stands before the first dash in the model: for the executions of either part
    each distinct feature has a bar for each policy, as high as they were executed together and with their mean time. *)
Theorem C142_bars : forall mean format num a b t n (drop : bool), Forall (fun c => c <> "-"%char /\ c <> nl) a -> regular t -> 1 <= tr_features t ->
  readable_numbers (map (seen_of num) (tr_entries t)) -> (if drop then 1 else 0) < n < List.length (tr_entries t) ->
  exists training tuned, plot_trace mean format num ($"trace-" ++ a ++ $"-" ++ b) (trace_text t) (Z.of_nat n) drop = Ok (a ++ $"-plot.pdf", training, tuned) /\
    right_bars mean format (skipn (if drop then 1 else 0) (firstn n (map (seen_of num) (tr_entries t)))) training /\
    right_bars mean format (skipn n (map (seen_of num) (tr_entries t))) tuned.
Proof. exact plotted. Qed.
Print Assumptions C142_bars.

(** Every execution is counted in one bar. *)
Theorem C142_counted : forall mean format l bars, readable_numbers l -> right_bars mean format l bars -> heights bars = List.length l.
Proof. exact counted_once. Qed.
Print Assumptions C142_counted.

(** The label of a feature and a policy executed together once is their time in millionths, though the title says ms. *)
Theorem C142_unit : forall mean format l bars f p h text x, right_bars mean format l bars -> In (f, p, h, text) bars -> times_with f p l = [x] ->
  mean [x] = x -> text = format (mul64 x (f64_of_Z 1000000)) /\ unit_title = $"Bar labels are mean execution times in ms".
Proof. exact one_time. Qed.
Print Assumptions C142_unit.

Example C142_nonvacuous : regular tried /\ readable_numbers (map (seen_of whole) (tr_entries tried)) /\
  $"trace-RoundRobin-region-a-rank-0.csv" = $"trace-" ++ $"RoundRobin" ++ $"-" ++ $"region-a-rank-0.csv" /\
  plots_are (plot_trace usual_mean usual_format whole ($"trace-RoundRobin-region-a-rank-0.csv") (trace_text tried) 3 true) "RoundRobin-plot.pdf"
    [(64%Z, 0%Z, 0, "0"%string); (64%Z, 1%Z, 1, "3000000"%string); (128%Z, 0%Z, 1, "5000000"%string); (128%Z, 1%Z, 0, "0"%string)]
    [(64%Z, 0%Z, 0, "0"%string); (64%Z, 1%Z, 2, "3000000"%string); (128%Z, 0%Z, 1, "7000000"%string); (128%Z, 1%Z, 0, "0"%string)] = true.
Proof. split; [exact tried_regular|]. split; [exact tried_numbers|]. split; [reflexivity|exact tried_plots]. Qed.

(** The plots of all regions and ranks, and of all models that agree up to a dash, are written to one file. *)
Theorem C142_overwritten : forall mean format num a b b' region region' rank rank' text text' n n' drop drop' f f' x x' y y',
  Forall (fun c => c <> "-"%char /\ c <> nl) a ->
  plot_trace mean format num (trace_name (a ++ $"-" ++ b) region rank) text n drop = Ok (f, x, y) ->
  plot_trace mean format num (trace_name (a ++ $"-" ++ b') region' rank') text' n' drop' = Ok (f', x', y') \/
  plot_trace mean format num (trace_name a region' rank') text' n' drop' = Ok (f', x', y') -> f = f'.
Proof. exact one_file. Qed.
Print Assumptions C142_overwritten.

Example C142_overwritten_example :
  plotted_model (trace_name ($"PolicyNet,lr=1e-3") ($"a") 0) = Ok ($"PolicyNet,lr=1e") /\ plotted_model (trace_name ($"PolicyNet,lr=1e-2") ($"b") 7) = Ok ($"PolicyNet,lr=1e") /\
  plotted_model (trace_name ($"RoundRobin") ($"a") 0) = plotted_model (trace_name ($"RoundRobin") ($"b") 1).
Proof. repeat split. Qed.

(** A trace named with its directory, as the runtime writes it, is not plotted, and neither is that of a region without features. *)
Theorem C142_directory : forall mean format num file text n drop, (forall s, file <> $"trace-" ++ s) -> plot_trace mean format num file text n drop = Throw.
Proof. exact elsewhere. Qed.
Print Assumptions C142_directory.
Theorem C142_no_features : forall mean format num file t n drop, readable t -> tr_features t = 0 -> plot_trace mean format num file (trace_text t) n drop = Throw.
Proof. exact without_features. Qed.
Print Assumptions C142_no_features.

Example C142_refused_example : (forall s, $".apollo/traces/trace-RoundRobin-region-a-rank-0.csv" <> $"trace-" ++ s) /\ readable plain_trace /\ tr_features plain_trace = 0.
Proof. split; [discriminate|exact plain_trace_readable]. Qed.
