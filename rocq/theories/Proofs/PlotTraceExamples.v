(** The plots of the trace of a region with one feature. *)
From Coq Require Import List ZArith Bool Ascii String Lia.
From Flocq Require Import BinarySingleNaN.
From Verif Require Import Model.Base Model.Float Model.Decimal Model.DatasetM Model.RuntimeM Model.CreateDatasetM Model.AnalyzeM Model.PlotTraceM
  Spec.DatasetSpec Spec.RuntimeSpec Spec.CreateDatasetSpec Spec.PlotTraceSpec Proofs.AnalyzeExamples.
From Coq Require Import List.
Import ListNotations.
Local Open Scope Z_scope.

(** The mean, and a number without its fraction. *)
Definition usual_mean (l : list f64) : f64 := div64 (fold_left add64 l zero64) (f64_of_Z (Z.of_nat (List.length l))).
Definition usual_format (x : f64) : bytes := print_Z (Btrunc x).

(** Executions with a feature and a policy; the times are in seconds. *)
Definition done_with (idx feature policy time : Z) : entry := mkEntry 0 (0%nat, Sync) idx [f32_of_Z feature] policy (f64_of_Z time) false.
Definition tried : trace :=
  mkTrace 0 ($"RoundRobin") ($"a") 1
    [done_with 0 64 0 9; done_with 1 64 1 3; done_with 2 128 0 5; done_with 3 64 1 2; done_with 4 64 1 4; done_with 5 128 0 7].

Definition fine_b (k : nat) (e : entry) : bool := Nat.eqb (List.length (e_features e)) k && forallb (fun x => negb (is_nan x)) (e_features e) && negb (is_nan (e_metric e)).
Lemma fine_bool k e : fine_b k e = true -> List.length (e_features e) = k /\ Forall (fun x => is_nan x = false) (e_features e) /\ is_nan (e_metric e) = false.
Proof.
  unfold fine_b. intros H. apply andb_true_iff in H as [H M]. apply andb_true_iff in H as [L F]. split; [apply Nat.eqb_eq, L|]. split.
  - apply Forall_forall. intros x I. rewrite forallb_forall in F. specialize (F x I). destruct (is_nan x); [discriminate|reflexivity].
  - destruct (is_nan (e_metric e)); [discriminate|reflexivity].
Qed.
Lemma tried_regular : regular tried.
Proof.
  constructor; [apply plain_field; reflexivity|apply plain_field; reflexivity|]. apply Forall_forall. intros e I. apply fine_bool.
  assert (X : forallb (fine_b 1) (tr_entries tried) = true) by (vm_compute; reflexivity). rewrite forallb_forall in X. exact (X e I).
Qed.
Definition number_b (s : seen) : bool := negb (is_nan (fst (fst s))) && negb (is_nan (snd (fst s))).
Lemma tried_numbers : readable_numbers (map (seen_of whole) (tr_entries tried)).
Proof.
  apply Forall_forall. intros s I. assert (X : forallb number_b (map (seen_of whole) (tr_entries tried)) = true) by (vm_compute; reflexivity).
  rewrite forallb_forall in X. specialize (X s I). unfold number_b in X. apply andb_true_iff in X as [A B]. apply negb_true_iff in A, B. split; assumption.
Qed.

(** The name of the file, and the features, policies, heights and labels of the bars. *)
Definition bar_is (b : bar * bytes) (x : Z * Z * nat * string) : bool :=
  let '(f, p, h, t) := b in let '(f', p', h', t') := x in eq64 f (f64_of_Z f') && eq64 p (f64_of_Z p') && Nat.eqb h h' && bytes_eqb t ($t').
Fixpoint bars_are (l : list (bar * bytes)) (m : list (Z * Z * nat * string)) : bool :=
  match l, m with [], [] => true | b :: l', x :: m' => bar_is b x && bars_are l' m' | _, _ => false end.
Definition plots_are (o : outcome (bytes * list (bar * bytes) * list (bar * bytes))) (file : string) (m n : list (Z * Z * nat * string)) : bool :=
  match o with Ok (f, a, b) => bytes_eqb f ($file) && bars_are a m && bars_are b n | _ => false end.

(** With the first execution dropped, two for training and three after it: two with the feature 64 and policy 1 take 3 seconds on average. *)
Lemma tried_plots : plots_are (plot_trace usual_mean usual_format whole ($"trace-RoundRobin-region-a-rank-0.csv") (trace_text tried) 3 true) "RoundRobin-plot.pdf"
  [(64, 0, 0%nat, "0"%string); (64, 1, 1%nat, "3000000"%string); (128, 0, 1%nat, "5000000"%string); (128, 1, 0%nat, "0"%string)]
  [(64, 0, 0%nat, "0"%string); (64, 1, 2%nat, "3000000"%string); (128, 0, 1%nat, "7000000"%string); (128, 1, 0%nat, "0"%string)] = true.
Proof. vm_compute. reflexivity. Qed.

(** A region without features. *)
Definition plain_trace : trace := mkTrace 0 ($"RoundRobin") ($"b") 0 [took 0 0 5].
Lemma plain_trace_readable : readable plain_trace /\ tr_features plain_trace = 0%nat.
Proof. split; [|reflexivity]. constructor; [apply plain_field; reflexivity|apply plain_field; reflexivity|repeat constructor]. Qed.
