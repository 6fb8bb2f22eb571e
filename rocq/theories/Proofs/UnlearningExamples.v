(** Concrete runs for Props/Unlearning.v. *)
From Coq Require Import ZArith Bool Ascii String Lia List.
From Verif Require Import Model.Base Model.Float Model.Decimal Model.DatasetM Model.ParserM Model.PolicyModelsM Model.ConfigM Model.RuntimeM
  Spec.PolicyModelsSpec Spec.RuntimeSpec Proofs.RuntimeExamples Proofs.RuntimePolicyExamples Proofs.ExplorerExamples.
Import ListNotations.
Local Open Scope Z_scope.

(** A file of two policies for region r. *)
Definition with_best : world := start_world plain [($"opt-r-rank-0.txt", $"1,0")].
Lemma with_best_file : file_find ($"opt-" ++ firstn 63 (cstr ($"r")) ++ $"-rank-" ++ print_Z (w_rank with_best) ++ $".txt") (w_files with_best) = Some (comma_separated (map print_Z [1; 0])).
Proof. reflexivity. Qed.
(** Two executions, one with training forced before it. *)
Definition forced_between : list op := execution 0 1 0 1 ++ [OpTrain 0 0 true true] ++ execution 0 2 20 25.

Definition from_b (w : world) (m : op) (q : world -> bool) : bool :=
  match step example_platform w m with Ok (w1, GotRegion 0) => q w1 | _ => false end.
Lemma from_true w m q : from_b w m q = true -> exists w1, step example_platform w m = Ok (w1, GotRegion 0) /\ q w1 = true.
Proof.
  unfold from_b. destruct (step _ w m) as [[w1 x]| | | |]; try discriminate. destruct x as [|n| |]; try discriminate. destruct n; [eauto|discriminate].
Qed.
Lemma answered_example w m os expected : from_b w m (fun w1 => match run example_platform w1 os with Ok (w', xs) => zs_eqb (answers os xs 0) expected | _ => false end) = true ->
  exists w1 w' xs, step example_platform w m = Ok (w1, GotRegion 0) /\ run example_platform w1 os = Ok (w', xs) /\ answers os xs 0 = expected.
Proof.
  intros H. apply from_true in H as (w1 & S & H). destruct (run example_platform w1 os) as [[w' xs]| | | |] eqn:RU; try discriminate H.
  apply zs_eqb_true in H. exists w1, w', xs. repeat (split; [assumption|]). exact H.
Qed.
