(** A case of the benchmark. *)
From Coq Require Import ZArith Bool Ascii String Lia List.
From Verif Require Import Model.Base Model.Float Model.PolicyModelsM Model.ConfigM Model.RuntimeM Model.OverheadM Spec.TreeSpec Spec.SafeClient Spec.OverheadSpec
  Proofs.InsertionSortFacts Proofs.RuntimeExamples Proofs.SafeExamples Proofs.TestVerdict Proofs.OverheadFacts.
Import ListNotations.
Open Scope Z_scope.

Definition bare_b (c : config) : bool :=
  plain_b c && ((cf_global_period c =? 0) && (cf_region_period c =? 0) && (cf_trace_policy c =? 0) && (cf_trace_best c =? 0) && (cf_trace_csv c =? 0) && (cf_store_models c =? 0)).
Lemma bare_b_true c : bare_b c = true -> bare c.
Proof.
  unfold bare_b. rewrite !andb_true_iff, !Z.eqb_eq. intros (A & ((((B & C) & E) & F) & G) & H). constructor; try assumption. apply plain_b_true. exact A.
Qed.
Lemma defaults_bare : bare defaults.
Proof. apply bare_b_true. vm_compute. reflexivity. Qed.

Definition ticking (j : nat) : Z * Z := (0, Z.of_nat j).
Definition ticked (j : nat) : Z * Z := (1, Z.of_nat j).

(** `apollo-overhead 2 4 20 1000` builds its tree; `apollo-overhead 2 4 1 1000` runs to its end. *)
Lemma benchmark_cases :
  apollo_instance false (fun _ => None) (fun _ => true) true = Ok defaults /\ bare defaults /\ sorter_ok (p_sort example_platform) /\
  (exists w, overhead_build example_platform ticking ticked (fun _ => some_draws) no_init 2 4 20 1000 (start_world defaults []) = Ok w) /\
  (exists w, overhead_main example_platform ticking ticked (fun _ => some_draws) no_init 5 2 4 1 1000 (start_world defaults []) = Ok (0, w)).
Proof.
  split; [exact defaults_ok|]. split; [exact defaults_bare|]. split; [exact insertion_sort_ok|]. split.
  - apply (benchmark_wrong example_platform defaults [] ticking ticked (fun _ => some_draws) no_init insertion_sort_ok defaults_bare 5 2 4 20 1000); try lia. right. exists 5. reflexivity.
  - apply (benchmark_right example_platform defaults [] ticking ticked (fun _ => some_draws) no_init insertion_sort_ok defaults_bare 5 2 4 1 1000); try lia.
Qed.
