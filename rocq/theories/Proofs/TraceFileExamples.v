(** Runs whose regions share the file of their traces. *)
From Coq Require Import ZArith Bool Ascii String Lia List.
From Verif Require Import Model.Base Model.PolicyModelsM Model.ConfigM Model.RuntimeM Model.TraceFileM
  Spec.TraceFileSpec Proofs.ModelStringFacts Proofs.RuntimeExamples Proofs.AnalyzeExamples Proofs.TraceFileFacts Proofs.RuntimeGrows.
Import ListNotations.
Open Scope Z_scope.

Definition traced_settings : config := csv_settings "Static,policy=1".
Definition execute (r : nat) (x t t' : Z) : list op := [start r t; give (r, Sync) x; ask_policy (r, Sync); finish (r, Sync) t'].
Definition trace_lines (l : list string) : bytes := List.concat (map (fun s => $s ++ [nl]) ("rankid training region idx f0 policy xtime"%string :: l)).
Definition shared_path : bytes := $".apollo/.apollo/traces/trace-Static,policy=1-region-r-rank-0.csv".

Lemma traced_holds P w os (q : world * list stream_event -> bool) :
  match traced_run P w os with Ok a => q a | _ => false end = true -> exists v es, traced_run P w os = Ok (v, es) /\ q (v, es) = true.
Proof. destruct (traced_run P w os) as [[v es]| | | |]; try discriminate. eauto. Qed.

(** A region, destroyed, and another of its name after it. *)
Definition one_after_another : list op :=
  make "r" 2 0 "" :: execute 0 3 10 14 ++ execute 0 4 20 21 ++ [OpDestroy 0 []; make "r" 2 0 ""] ++ execute 1 5 30 37 ++ [OpDestroy 1 []].
Definition region_is (w : world) (r : nat) (alive : bool) (path text : bytes) : bool :=
  match nth_error (w_regions w) r with Some R => Bool.eqb (r_alive R) alive && bytes_eqb (trace_path w R) path && bytes_eqb (r_trace R) text | None => false end.
Lemma region_is_true w r alive path text : region_is w r alive path text = true ->
  exists R, nth_error (w_regions w) r = Some R /\ r_alive R = alive /\ trace_path w R = path /\ r_trace R = text.
Proof.
  unfold region_is. destruct (nth_error (w_regions w) r) as [R|]; [|discriminate]. intros H. apply andb_prop in H. destruct H as [H A]. apply andb_prop in H. destruct H as [H B].
  exists R. split; auto. split; [now apply Bool.eqb_prop|]. split; now apply bytes_eqb_eq.
Qed.

Lemma after_another : exists w es, traced_run example_platform (start_world traced_settings []) one_after_another = Ok (w, es) /\
  region_is w 0 false shared_path (trace_lines ["0 Static,1 r 0 3 1 4"; "0 Static,1 r 1 4 1 1"]%string) = true /\
  region_is w 1 false shared_path (trace_lines ["0 Static,1 r 0 5 1 7"]%string) = true /\ List.length (w_regions w) = 2%nat.
Proof.
  destruct (traced_holds example_platform (start_world traced_settings []) one_after_another (fun s =>
    region_is (fst s) 0 false shared_path (trace_lines ["0 Static,1 r 0 3 1 4"; "0 Static,1 r 1 4 1 1"]%string) &&
    region_is (fst s) 1 false shared_path (trace_lines ["0 Static,1 r 0 5 1 7"]%string) && Nat.eqb (List.length (w_regions (fst s))) 2)) as (w & es & E & H); [vm_compute; reflexivity|].
  cbn [fst] in H. apply andb_prop in H. destruct H as [H H3]. apply andb_prop in H. destruct H as [H1 H2]. exists w, es. apply Nat.eqb_eq in H3. auto.
Qed.

(** Two regions of one name at the same time. *)
Definition both_there : list op := make "r" 2 0 "" :: execute 0 3 10 14 ++ [make "r" 2 0 ""] ++ execute 0 4 20 21 ++ execute 1 5 30 37.
Definition first_ends : list op := [OpDestroy 0 []].
Definition second_ends : list op := [OpDestroy 1 []].

Definition sole_here (w : world) (r : nat) (path : bytes) : bool :=
  match nth_error (w_regions w) r with
  | None => true
  | Some _ => forallb (fun j => match nth_error (w_regions w) j with Some Q => Nat.eqb j r || negb (r_alive Q) || negb (bytes_eqb (trace_path w Q) path) | None => true end)
      (seq 0 (List.length (w_regions w)))
  end.
Fixpoint sole_b (P : platform) (w : world) (os : list op) (r : nat) (path : bytes) : bool :=
  sole_here w r path && match os with [] => true | o :: os => match step P w o with Ok (w', _) => sole_b P w' os r path | _ => true end end.

Lemma sole_here_true w r path : sole_here w r path = true -> nth_error (w_regions w) r <> None ->
  forall j Q, j <> r -> nth_error (w_regions w) j = Some Q -> r_alive Q = true -> trace_path w Q <> path.
Proof.
  unfold sole_here. intros H N j Q J E A. destruct (nth_error (w_regions w) r); [|congruence]. rewrite forallb_forall in H. specialize (H j). rewrite E in H.
  assert (I : In j (seq 0 (List.length (w_regions w)))) by (apply in_seq; split; [lia|]; apply nth_error_Some; congruence). specialize (H I). rewrite A in H.
  destruct (Nat.eqb_spec j r); [contradiction|]. cbn in H. intros X. rewrite X, bytes_eqb_refl in H. discriminate.
Qed.

Lemma sole_b_true P r path : forall os w, sole_b P w os r path = true -> sole_writer P w os r path.
Proof.
  induction os as [|o os IH]; intros w H w1 (a & b & xs & Q & R).
  - destruct a; [|discriminate]. cbn in R. inversion R; subst. cbn [sole_b] in H. apply andb_prop in H. apply sole_here_true. tauto.
  - cbn [sole_b] in H. apply andb_prop in H. destruct H as [H1 H2]. destruct a as [|o' a].
    + cbn in R. inversion R; subst. apply sole_here_true. exact H1.
    + cbn in Q. inversion Q; subst. cbn in R. destruct (step P w o') as [[w2 x]| | | |]; try discriminate. cbn in R. apply TreeFacts.bind_inv in R. destruct R as ([w3 ys] & R & E). inversion E; subst.
      apply (IH w2 H2). exists a, b, ys. auto.
Qed.

Lemma after_another_alone : sole_writer example_platform (start_world traced_settings []) one_after_another 1 shared_path.
Proof. apply sole_b_true. vm_compute. reflexivity. Qed.

(** Two regions of one name at the same time. *)
Definition alive_is (w : world) (r : nat) (b : bool) : bool := match nth_error (w_regions w) r with Some R => Bool.eqb (r_alive R) b | None => false end.
Lemma alive_is_true w r b : alive_is w r b = true -> exists R, nth_error (w_regions w) r = Some R /\ r_alive R = b.
Proof. unfold alive_is. destruct (nth_error (w_regions w) r) as [R|]; [|discriminate]. intros H. exists R. split; auto. now apply Bool.eqb_prop. Qed.

Lemma both_there_run : exists w0 xs, run example_platform (start_world traced_settings []) both_there = Ok (w0, xs) /\
  (alive_is w0 0 true && alive_is w0 1 true && match run example_platform w0 first_ends with Ok (w1, _) => alive_is w1 0 false && alive_is w1 1 true | _ => false end) = true.
Proof. apply (run_holds example_platform (start_world traced_settings []) both_there (fun s => alive_is (fst s) 0 true && alive_is (fst s) 1 true && match run example_platform (fst s) first_ends with Ok (w1, _) => alive_is w1 0 false && alive_is w1 1 true | _ => false end)). vm_compute. reflexivity. Qed.

Lemma first_ends_steps w0 : (alive_is w0 0 true && alive_is w0 1 true && match run example_platform w0 first_ends with Ok (w1, _) => alive_is w1 0 false && alive_is w1 1 true | _ => false end) = true ->
  exists w1 ys, alive_is w0 0 true = true /\ alive_is w0 1 true = true /\ run example_platform w0 first_ends = Ok (w1, ys) /\ alive_is w1 0 false = true /\ alive_is w1 1 true = true.
Proof.
  intros K. apply andb_prop in K. destruct K as [K K3]. apply andb_prop in K. destruct K as [K1 K2]. destruct (run example_platform w0 first_ends) as [[w1 ys]| | | |]; try discriminate.
  apply andb_prop in K3. destruct K3. exists w1, ys. auto.
Qed.
Lemma both_there_steps : exists w0 xs w1 ys, run example_platform (start_world traced_settings []) both_there = Ok (w0, xs) /\ alive_is w0 0 true = true /\ alive_is w0 1 true = true /\
    run example_platform w0 first_ends = Ok (w1, ys) /\ alive_is w1 0 false = true /\ alive_is w1 1 true = true.
Proof. destruct both_there_run as (w0 & xs & RA & K). apply first_ends_steps in K. destruct K as (w1 & ys & K1 & K2 & K3 & K4 & K5). exists w0, xs, w1, ys. split; [exact RA|]. split; [exact K1|]. split; [exact K2|]. split; [exact K3|]. split; [exact K4|exact K5]. Qed.

Lemma both_end_run : exists w es, traced_run example_platform (start_world traced_settings []) (both_there ++ first_ends ++ second_ends) = Ok (w, es) /\
  region_is w 0 false shared_path (trace_lines ["0 Static,1 r 0 3 1 4"; "0 Static,1 r 1 4 1 1"]%string) = true /\
  region_is w 1 false shared_path (trace_lines ["0 Static,1 r 0 5 1 7"]%string) = true /\ List.length (w_regions w) = 2%nat /\
  holds (disk_after [] es) shared_path = Some (trace_lines ["0 Static,1 r 0 5 1 7"; "0 Static,1 r 1 4 1 1"]%string).
Proof.
  destruct (traced_holds example_platform (start_world traced_settings []) (both_there ++ first_ends ++ second_ends) (fun s =>
    region_is (fst s) 0 false shared_path (trace_lines ["0 Static,1 r 0 3 1 4"; "0 Static,1 r 1 4 1 1"]%string) &&
    region_is (fst s) 1 false shared_path (trace_lines ["0 Static,1 r 0 5 1 7"]%string) && Nat.eqb (List.length (w_regions (fst s))) 2 &&
    match holds (disk_after [] (snd s)) shared_path with Some t => bytes_eqb t (trace_lines ["0 Static,1 r 0 5 1 7"; "0 Static,1 r 1 4 1 1"]%string) | None => false end)) as (w & es & E & H); [vm_compute; reflexivity|].
  cbn [fst snd] in H. apply andb_prop in H. destruct H as [H H4]. apply andb_prop in H. destruct H as [H H3]. apply andb_prop in H. destruct H as [H1 H2]. exists w, es. apply Nat.eqb_eq in H3. repeat (split; [assumption|]).
  destruct (holds (disk_after [] es) shared_path) as [t|]; [|discriminate]. f_equal. now apply bytes_eqb_eq.
Qed.

(** The first stream hands over all it has before the second region comes. *)
Definition early_flush (es : list stream_event) : list stream_event := firstn 6 es ++ Flushed 0 100 :: skipn 6 es.
Lemma early_flush_buffered es : buffered es (early_flush es).
Proof.
  unfold early_flush. rewrite <- (firstn_skipn 6 es) at 1. generalize (firstn 6 es) (skipn 6 es). intros a b. induction a; cbn; [|now constructor]. constructor. apply buffered_refl.
Qed.

Lemma hole_run : exists w es text, traced_run example_platform (start_world traced_settings []) (both_there ++ first_ends) = Ok (w, es) /\
  region_is w 0 false shared_path (trace_lines ["0 Static,1 r 0 3 1 4"; "0 Static,1 r 1 4 1 1"]%string) = true /\
  region_is w 1 true shared_path (trace_lines ["0 Static,1 r 0 5 1 7"]%string) = true /\
  holds (disk_after [] (early_flush es)) shared_path = Some text /\ text = repeat nul (List.length (trace_lines ["0 Static,1 r 0 3 1 4"]%string)) ++ $"0 Static,1 r 1 4 1 1" ++ [nl].
Proof.
  destruct (traced_holds example_platform (start_world traced_settings []) (both_there ++ first_ends) (fun s =>
    region_is (fst s) 0 false shared_path (trace_lines ["0 Static,1 r 0 3 1 4"; "0 Static,1 r 1 4 1 1"]%string) &&
    region_is (fst s) 1 true shared_path (trace_lines ["0 Static,1 r 0 5 1 7"]%string) &&
    match holds (disk_after [] (early_flush (snd s))) shared_path with Some t => bytes_eqb t (repeat nul (List.length (trace_lines ["0 Static,1 r 0 3 1 4"]%string)) ++ $"0 Static,1 r 1 4 1 1" ++ [nl]) | None => false end)) as (w & es & E & H); [vm_compute; reflexivity|].
  cbn [fst snd] in H. apply andb_prop in H. destruct H as [H H4]. apply andb_prop in H. destruct H as [H1 H2].
  destruct (holds (disk_after [] (early_flush es)) shared_path) as [t|] eqn:HT; [|discriminate]. exists w, es, t. repeat (split; [assumption|]). now apply bytes_eqb_eq.
Qed.

Lemma untouched_run : exists w es, traced_run example_platform (start_world traced_settings [($"notes", $"old")]) one_after_another = Ok (w, es) /\ es <> [] /\
  (forall r R, nth_error (w_regions w) r = Some R -> trace_path w R <> $"notes").
Proof.
  destruct (traced_holds example_platform (start_world traced_settings [($"notes", $"old")]) one_after_another (fun s =>
    forallb (fun R => negb (bytes_eqb (trace_path (fst s) R) ($"notes"))) (w_regions (fst s)) && negb (Nat.eqb (List.length (snd s)) 0))) as (w & es & E & H); [vm_compute; reflexivity|].
  cbn [fst snd] in H. apply andb_prop in H. destruct H as [H1 H2]. exists w, es. split; [exact E|]. split; [intros ->; discriminate H2|].
  intros r R ER Q. apply nth_error_In in ER. rewrite forallb_forall in H1. specialize (H1 R ER). rewrite Q in H1. discriminate.
Qed.
