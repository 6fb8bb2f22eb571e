(** C148: regions whose model is never trained. *)
From Coq Require Import ZArith Bool Ascii String List.
From Flocq Require Import BinarySingleNaN.
From Verif Require Import Model.Base Model.Float Model.Decimal Model.DatasetM Model.ParserM Model.PolicyModelsM Model.ConfigM Model.RuntimeM Model.WriteOptM
  Spec.PolicyModelsSpec Spec.SafeClient Spec.ExplorerSpec Spec.WriteOptSpec Spec.RuntimeSpec Proofs.RuntimeExamples Proofs.RuntimePolicyExamples Proofs.ExplorerExamples
  Proofs.WriteOptExamples Proofs.UnlearningFacts Proofs.UnlearningExamples.
From Verif Require Import Spec.RuntimeSpec.
From Coq Require Import List.
Import ListNotations.
Open Scope Z_scope.

(** A region with model Optimal is created when the file of its name and rank is there; whatever is called on it and on others, training included,
    its answers are the policies of the file from the first on, and after the last of them the next call that asks for a policy stops the program. *)
Theorem C148_optimal : forall P w nf nm np mt info init ps, model_string (w_config w) info = $"Optimal" -> cf_persistent (w_config w) = 0 ->
  file_find ($"opt-" ++ firstn 63 (cstr nm) ++ $"-rank-" ++ print_Z (w_rank w) ++ $".txt") (w_files w) = Some (comma_separated (map print_Z ps)) ->
  Forall (fun p => -2147483648 <= p <= 2147483647) ps ->
  exists w1 r, step P w (OpRegion nf nm np mt info [] init) = Ok (w1, GotRegion r) /\
    forall os w' xs, run P w1 os = Ok (w', xs) ->
    exists rest, ps = answers os xs r ++ rest /\
      (rest = [] -> forall R' p c D, nth_error (w_regions w') r = Some R' -> r_alive R' = true -> get_context w' p = Ok c ->
         step P w' (OpGetPolicy r (Some p) D) = Abort).
Proof. exact optimal_run. Qed.
Example C148_optimal_example : model_string (w_config with_best) ($"Optimal") = $"Optimal" /\ cf_persistent (w_config with_best) = 0 /\
  file_find ($"opt-" ++ firstn 63 (cstr ($"r")) ++ $"-rank-" ++ print_Z (w_rank with_best) ++ $".txt") (w_files with_best) = Some (comma_separated (map print_Z [1; 0])) /\
  exists w1 w' xs, step example_platform with_best (make "r" 2 0 "Optimal") = Ok (w1, GotRegion 0) /\ run example_platform w1 forced_between = Ok (w', xs) /\ answers forced_between xs 0 = [1; 0].
Proof. split; [reflexivity|]. split; [reflexivity|]. split; [exact with_best_file|]. apply answered_example. vm_compute. reflexivity. Qed.
Print Assumptions C148_optimal.

(** Without the file the program stops when the region is created. *)
Theorem C148_missing : forall P w nf nm np mt info init, model_string (w_config w) info = $"Optimal" -> cf_persistent (w_config w) = 0 ->
  file_find ($"opt-" ++ firstn 63 (cstr nm) ++ $"-rank-" ++ print_Z (w_rank w) ++ $".txt") (w_files w) = None ->
  step P w (OpRegion nf nm np mt info [] init) = Abort.
Proof. exact optimal_missing. Qed.
Example C148_missing_example : file_find ($"opt-" ++ firstn 63 (cstr ($"q")) ++ $"-rank-" ++ print_Z (w_rank with_best) ++ $".txt") (w_files with_best) = None.
Proof. reflexivity. Qed.
Print Assumptions C148_missing.

(** When the file is the one analyze-traces.py --write-opt makes of the measurements, numbered from 0 on, each execution is given a policy that took least time for it. *)
Theorem C148_fastest : forall P w nf nm np mt info init rows s count, model_string (w_config w) info = $"Optimal" -> cf_persistent (w_config w) = 0 ->
  arranged rows (w_rank w) s -> (forall r, In r rows -> is_nan (o_time r) = false) -> (forall r, In r rows -> -2147483648 <= o_policy r <= 2147483647) ->
  (forall i, (exists r, measured_for rows (w_rank w) (firstn 63 (cstr nm)) i r) <-> 0 <= i < Z.of_nat count) ->
  file_find ($"opt-" ++ firstn 63 (cstr nm) ++ $"-rank-" ++ print_Z (w_rank w) ++ $".txt") (w_files w) = Some (opt_file s (firstn 63 (cstr nm))) ->
  exists w1 r, step P w (OpRegion nf nm np mt info [] init) = Ok (w1, GotRegion r) /\
    forall os w' xs, run P w1 os = Ok (w', xs) -> (List.length (answers os xs r) <= count)%nat /\
      forall i p, nth_error (answers os xs r) i = Some p -> fastest rows (w_rank w) (firstn 63 (cstr nm)) (Z.of_nat i) p.
Proof. exact optimal_fastest. Qed.
Example C148_fastest_example : arranged four_rows (w_rank with_best) four_sorted /\ (forall r, In r four_rows -> is_nan (o_time r) = false) /\
  (forall r, In r four_rows -> -2147483648 <= o_policy r <= 2147483647) /\
  (forall i, (exists r, measured_for four_rows (w_rank with_best) (firstn 63 (cstr ($"r"))) i r) <-> 0 <= i < Z.of_nat 2) /\
  file_find ($"opt-" ++ firstn 63 (cstr ($"r")) ++ $"-rank-" ++ print_Z (w_rank with_best) ++ $".txt") (w_files with_best) = Some (opt_file four_sorted (firstn 63 (cstr ($"r")))).
Proof. exact (conj four_arranged (conj four_numbers (conj four_policies (conj four_indices with_best_file)))). Qed.
Print Assumptions C148_fastest.

(** A region with model RoundRobin gives the policies in turn, whatever is trained. *)
Theorem C148_turns : forall P w nf nm np mt info init w1 r os w' xs, model_string (w_config w) info = $"RoundRobin" -> cf_persistent (w_config w) = 0 -> 1 <= np ->
  step P w (OpRegion nf nm np mt info [] init) = Ok (w1, GotRegion r) -> run P w1 os = Ok (w', xs) -> in_turn np (answers os xs r).
Proof. exact robin_run. Qed.
Example C148_turns_example : model_string plain ($"RoundRobin") = $"RoundRobin" /\
  exists w1 w' xs, step example_platform with_best (make "r" 3 0 "RoundRobin") = Ok (w1, GotRegion 0) /\ run example_platform w1 (forced_between ++ forced_between) = Ok (w', xs) /\
    answers (forced_between ++ forced_between) xs 0 = [0; 1; 2; 0].
Proof. split; [reflexivity|]. apply answered_example. vm_compute. reflexivity. Qed.
Print Assumptions C148_turns.

(** A region with model Static gives the one policy that was asked for. *)
Theorem C148_static : forall P w nf nm np mt info init k w1 r os w' xs, model_string (w_config w) info = $"Static,policy=" ++ print_Z k -> cf_persistent (w_config w) = 0 -> 0 <= k < np -> k <= 2147483647 ->
  step P w (OpRegion nf nm np mt info [] init) = Ok (w1, GotRegion r) -> run P w1 os = Ok (w', xs) -> Forall (eq k) (answers os xs r).
Proof. exact static_run. Qed.
Example C148_static_example : model_string plain ($"Static,policy=2") = $"Static,policy=" ++ print_Z 2 /\
  exists w1 w' xs, step example_platform with_best (make "r" 3 0 "Static,policy=2") = Ok (w1, GotRegion 0) /\ run example_platform w1 forced_between = Ok (w', xs) /\ answers forced_between xs 0 = [2; 2].
Proof. split; [reflexivity|]. apply answered_example. vm_compute. reflexivity. Qed.
Print Assumptions C148_static.
