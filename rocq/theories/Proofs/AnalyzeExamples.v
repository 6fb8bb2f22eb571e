(** Two runs of a program with a region of two policies and one of a single policy. *)
From Coq Require Import List ZArith Bool Ascii String Lia Lra Reals Permutation.
From Flocq Require Import Core BinarySingleNaN.
From Verif Require Import Model.Base Model.Float Model.Decimal Model.DatasetM Model.ConfigM Model.RuntimeM Model.CreateDatasetM Model.AnalyzeM Model.WriteOptM
  Spec.DatasetSpec Spec.RuntimeSpec Spec.CreateDatasetSpec Spec.AnalyzeSpec Spec.WriteOptSpec Spec.StartupSpec
  Proofs.DecimalInt Proofs.KokkosDoubles Proofs.InsertionSortFacts Proofs.CreateDatasetFacts Proofs.RuntimeExamples Proofs.RuntimeFileExamples Proofs.AnalyzeFacts Proofs.AnalyzeRuns.
From Coq Require Import List.
Import ListNotations.
Open Scope Z_scope.

Definition whole (s : bytes) : f64 := f64_of_Z (digits_val s).
Definition took (idx policy time : Z) : entry := mkEntry 0 (0%nat, Sync) idx [] policy (f64_of_Z time) false.
Definition ran (setting policies : Z) (model region : string) (es : list entry) : static_trace :=
  mkStatic setting policies (mkTrace 0 ($model) ($region) 0 es).
(** Region a takes 5 with policy 0 and 4 with policy 1; region b takes 10 with its only policy. *)
Definition two_runs : list static_trace :=
  [ran 0 2 "Static,0" "a" [took 0 0 5]; ran 0 1 "Static,0" "b" [took 0 0 10];
   ran 1 2 "Static,1" "a" [took 0 1 4]; ran 1 1 "Static,0" "b" [took 0 0 10]].
(** Beside them a trace of another model. *)
Definition two_dir : list (bytes * bytes) := map file_of two_runs ++ [($"trace-RoundRobin-region-a-rank-0.csv", $"")].

Lemma plain_field s : forallb (fun c => negb (Ascii.eqb c " " || Ascii.eqb c nl || Ascii.eqb c """" || Ascii.eqb c "013")) s && negb (missing s) = true -> field s.
Proof.
  intros H. apply andb_true_iff in H as [H M]. split; [|destruct (missing s); [discriminate|reflexivity]]. apply Forall_forall. intros c I. rewrite forallb_forall in H. specialize (H c I).
  apply negb_true_iff in H. apply orb_false_iff in H as [H H4]. apply orb_false_iff in H as [H H3]. apply orb_false_iff in H as [H1 H2].
  repeat split; intros ->; discriminate.
Qed.

Fixpoint holds_in (w s : bytes) : bool := (bytes_eqb w (firstn (List.length w) s) || match s with [] => false | _ :: r => holds_in w r end)%bool.
Lemma contains_b w s : contains w s -> holds_in w s = true.
Proof.
  intros (a & b & ->). induction a as [|x a IH]; cbn [app].
  - destruct (w ++ b) eqn:E; cbn [holds_in]; rewrite <- E, firstn_app, Nat.sub_diag, firstn_all; cbn [firstn]; rewrite app_nil_r, ModelStringFacts.bytes_eqb_refl; reflexivity.
  - cbn [holds_in]. rewrite IH. apply orb_true_r.
Qed.

Lemma two_campaign : campaign 2 two_runs two_dir.
Proof.
  constructor.
  - discriminate.
  - repeat constructor; cbn; lia.
  - repeat constructor.
  - repeat (apply Forall_cons; [constructor; [apply plain_field; reflexivity|apply plain_field; reflexivity|repeat constructor]|]). apply Forall_nil.
  - cbn. repeat constructor; cbn; intuition discriminate.
  - exists [($"trace-RoundRobin-region-a-rank-0.csv", $"")]. split; [apply Permutation_refl|]. constructor; [|constructor]. intros H. apply contains_b in H. discriminate H.
Qed.

Definition time_is (o : outcome f64) (z : Z) : bool := match o with Ok x => eq64 x (f64_of_Z z) | _ => false end.
Definition reported_is (dir : list (bytes * bytes)) (n : nat) (model : string) (z : Z) : bool :=
  match load_traces dir (static_settings n) with Ok data => time_is (execution_time whole data 0 ($model)) z | _ => false end.
(** Reported: 25 for policy 0, which took 15, and 4 for policy 1, which took 14. *)
Lemma two_reported : reported_is two_dir 2 "Static,0" 25 = true /\ reported_is two_dir 2 "Static,1" 4 = true.
Proof. split; vm_compute; reflexivity. Qed.
Definition best_is (dir : list (bytes * bytes)) (n : nat) (model : string) : bool :=
  match load_traces dir (static_settings n) with
  | Ok data => match static_times whole data 0 n with Ok l => match best_static l with Ok (m, _) => bytes_eqb m ($model) | _ => false end | _ => false end
  | _ => false
  end.
Lemma two_best : best_is two_dir 2 "Static,1" = true.
Proof. vm_compute. reflexivity. Qed.

Definition row (region : string) (policy time : Z) : opt_row := mkOpt 0 ($region) 0 policy (f64_of_Z time).
(** The rows sorted by time; the best choices take 14. *)
Definition two_sorted : list opt_row := rows_of whole
  [ran 1 2 "Static,1" "a" [took 0 1 4]; ran 0 2 "Static,0" "a" [took 0 0 5]; ran 0 1 "Static,0" "b" [took 0 0 10]; ran 1 1 "Static,0" "b" [took 0 0 10]].
Lemma two_arranged : arranged (rows_of whole two_runs) 0 two_sorted.
Proof.
  split.
  - unfold of_rank. rewrite filter_all.
    2:{ intros r I. apply in_rows in I as (s & e & I & _ & ->). cbn [o_rank]. repeat (destruct I as [<-|I]; [reflexivity|]). contradiction. }
    unfold two_sorted, rows_of. apply flat_map_perm. unfold two_runs.
    etransitivity; [|apply Permutation_middle with (l1 := [])]. etransitivity; [apply perm_skip, perm_swap|]. apply perm_swap.
  - vm_compute. reflexivity.
Qed.
Lemma two_optimum : eq64 (opt_time two_sorted) (f64_of_Z 14) = true.
Proof. vm_compute. reflexivity. Qed.
Lemma whole_number z : 0 <= z <= 10 -> is_finite (f64_of_Z z) = true /\ (0 <= B2R (f64_of_Z z))%R.
Proof. intros H. destruct (f64_of_Z_spec z) as [A B]; [lia|]. split; [exact A|]. rewrite B. apply IZR_le. lia. Qed.
Lemma two_numbers r : In r (rows_of whole two_runs) -> is_finite (o_time r) = true /\ (0 <= B2R (o_time r))%R.
Proof.
  intros I. apply in_rows in I as (s & e & I & J & ->). cbn [o_time]. unfold whole.
  assert (S : digits_val (metric_text e) = 5 \/ digits_val (metric_text e) = 10 \/ digits_val (metric_text e) = 4).
  { destruct I as [<-|[<-|[<-|[<-|[]]]]]; destruct J as [<-|[]]; [left|right; left|right; right|right; left]; vm_compute; reflexivity. }
  destruct S as [->|[->| ->]].
  - apply whole_number; lia.
  - apply whole_number; lia.
  - apply whole_number; lia.
Qed.
Lemma two_measured j i region idx : (j = 0 \/ j = 1) -> measured_in two_runs 0 i region idx -> measured_in two_runs 0 j region idx.
Proof.
  intros J (s & e & I & _ & _ & R & E & X).
  destruct J as [->| ->]; destruct I as [<-|[<-|[<-|[<-|[]]]]]; destruct E as [<-|[]]; cbn [ran took sr_trace tr_region e_index] in R, X; subst region idx; unfold measured_in;
    first [solve [exists (ran 0 2 "Static,0" "a" [took 0 0 5]), (took 0 0 5); refine (conj _ (conj eq_refl (conj eq_refl (conj eq_refl (conj (or_introl eq_refl) eq_refl))))); unfold two_runs; auto 6 using in_eq, in_cons]
         | solve [exists (ran 0 1 "Static,0" "b" [took 0 0 10]), (took 0 0 10); refine (conj _ (conj eq_refl (conj eq_refl (conj eq_refl (conj (or_introl eq_refl) eq_refl))))); unfold two_runs; auto 6 using in_eq, in_cons]
         | solve [exists (ran 1 2 "Static,1" "a" [took 0 1 4]), (took 0 1 4); refine (conj _ (conj eq_refl (conj eq_refl (conj eq_refl (conj (or_introl eq_refl) eq_refl))))); unfold two_runs; auto 6 using in_eq, in_cons]
         | solve [exists (ran 1 1 "Static,0" "b" [took 0 0 10]), (took 0 0 10); refine (conj _ (conj eq_refl (conj eq_refl (conj eq_refl (conj (or_introl eq_refl) eq_refl))))); unfold two_runs; auto 6 using in_eq, in_cons]].
Qed.

(** The second of these runs, of a region with five policies and one with three. *)
Definition csv_settings (model : string) : config :=
  mkConfig ($model) 0 1 0 1 0 0 0 0 0 0 0 0 one32 half32 1 0 0 ($".apollo") ($".apollo/datasets") ($".apollo/traces") ($".apollo/models").
Definition static_ends : list op := static_calls ++ [finish s0 3; finish s1 9].
Lemma static_ended : exists w xs R, run example_platform (start_world (csv_settings "Static,policy=3") []) static_ends = Ok (w, xs) /\
  nth_error (w_regions w) 1 = Some R /\ r_trace R = $"rankid training region idx f0 policy xtime" ++ [nl] ++ $"0 Static,0 b 0 0 8" ++ [nl].
Proof.
  destruct (run_holds example_platform (start_world (csv_settings "Static,policy=3") []) static_ends
    (fun s => match nth_error (w_regions (fst s)) 1 with Some R => bytes_eqb (r_trace R) ($"rankid training region idx f0 policy xtime" ++ [nl] ++ $"0 Static,0 b 0 0 8" ++ [nl]) | None => false end)) as (w & xs & E & H); [vm_compute; reflexivity|].
  cbn [fst] in H. destruct (nth_error (w_regions w) 1) as [R|] eqn:ER; [|discriminate H]. exists w, xs, R. split; [exact E|]. split; [exact ER|]. apply ModelStringFacts.bytes_eqb_eq. exact H.
Qed.

(** A single run. *)
Definition one_run : list static_trace := [ran 0 2 "Static,0" "a" [took 0 0 5]; ran 0 1 "Static,0" "b" [took 0 0 10]].
Lemma one_reported : campaign 1 one_run (map file_of one_run) /\ Forall (fun s => Z.of_nat 1 <= sr_policies s) one_run /\
  reported_is (map file_of one_run) 1 "Static,0" 15 = true.
Proof.
  split; [|split; [repeat constructor; cbn; lia|vm_compute; reflexivity]]. constructor.
  - discriminate.
  - repeat constructor; cbn; lia.
  - repeat constructor.
  - repeat (apply Forall_cons; [constructor; [apply plain_field; reflexivity|apply plain_field; reflexivity|repeat constructor]|]). apply Forall_nil.
  - cbn. repeat constructor; cbn; intuition discriminate.
  - exists []. split; [rewrite app_nil_r; apply Permutation_refl|constructor].
Qed.

Definition below (dir : list (bytes * bytes)) (n : nat) (sorted : list opt_row) : bool :=
  match load_traces dir (static_settings n) with
  | Ok data => match static_times whole data 0 n with Ok l => match best_static l with Ok (_, t) => lt64 t (opt_time sorted) | _ => false end | _ => false end
  | _ => false
  end.
Lemma below_optimum : exists num n ss dir sorted data l best t, campaign n ss dir /\ load_traces dir (static_settings n) = Ok data /\
  arranged (rows_of num ss) 0 sorted /\ static_times num data 0 n = Ok l /\ best_static l = Ok (best, t) /\ lt64 t (opt_time sorted) = true.
Proof.
  assert (B : below two_dir 2 two_sorted = true) by (vm_compute; reflexivity). unfold below in B.
  destruct (load_traces two_dir (static_settings 2)) as [data| | | |] eqn:L; try discriminate B.
  destruct (static_times whole data 0 2) as [l| | | |] eqn:T; try discriminate B.
  destruct (best_static l) as [[best t]| | | |] eqn:S; try discriminate B.
  exists whole, 2%nat, two_runs, two_dir, two_sorted, data, l, best, t. split; [exact two_campaign|]. split; [exact L|]. split; [exact two_arranged|]. auto.
Qed.
