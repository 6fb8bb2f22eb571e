(** Concrete runs used beside C71, C76 and C77. *)
From Coq Require Import ZArith Bool Ascii String Lia List.
From Flocq Require Import BinarySingleNaN.
From Verif Require Import Model.Base Model.Float Model.DatasetM Model.ModelStringM Model.PolicyModelsM Model.ConfigM Model.RuntimeM
  Spec.DatasetSpec Spec.StartupSpec Spec.RuntimeSpec Proofs.ModelStringFacts Proofs.RuntimeTraceDefects Proofs.RuntimeExamples Proofs.RuntimePolicyExamples.
Import ListNotations.
Open Scope Z_scope.

Definition tracing : config :=
  mkConfig ($"Static,policy=0") 0 1 0 1 0 0 1 0 0 0 1 0 one32 half32 0 0 0 ($".apollo") ($".apollo/datasets") ($".apollo/traces") ($".apollo/models").
Definition best_tracing : config :=
  mkConfig ($"Static,policy=0") 0 1 0 1 0 0 0 0 0 0 1 0 one32 half32 0 0 0 ($".apollo") ($".apollo/datasets") ($".apollo/traces") ($".apollo/models").

(** 3000000000 does not fit in an int. *)
Lemma large_unprintable : unprintable (f32_of_Z 3000000000).
Proof. apply unprintable_undefined. vm_compute. reflexivity. Qed.

Definition large_calls : list op := make "r" 2 0 "DecisionTree,explore=RoundRobin" :: execution 0 3000000000 0 1.

Lemma large_run : exists w xs R f p m,
  run example_platform (start_world best_tracing []) large_calls = Ok (w, xs) /\ nth_error (w_regions w) 0 = Some R /\ r_alive R = true /\ m_trainable (r_model R) = true /\
  In (f, p, m) (ds_to_vector (r_dataset R)) /\ Exists unprintable f /\ step example_platform w (OpTrain 0 0 false false) = UB.
Proof.
  destruct (run_holds example_platform (start_world best_tracing []) large_calls
    (fun s => match step example_platform (fst s) (OpTrain 0 0 false false) with
      | UB => region_b (fst s) 0 (fun R => r_alive R && m_trainable (r_model R) && match ds_to_vector (r_dataset R) with (x :: _, _, _) :: _ => match int_of_float x with UB => true | _ => false end | _ => false end)
      | _ => false end)) as (w & xs & E & H); [vm_compute; reflexivity|].
  cbn [fst] in H. destruct (step example_platform w (OpTrain 0 0 false false)) eqn:E2; try discriminate H.
  apply region_b_true in H. destruct H as (R & ER & H). apply andb_prop in H. destruct H as [H H3]. apply andb_prop in H. destruct H as [H1 H2].
  destruct (ds_to_vector (r_dataset R)) as [|[[[|x f] p] m] d] eqn:ED; try discriminate H3. destruct (int_of_float x) eqn:EI; try discriminate H3.
  exists w, xs, R, (x :: f), p, m. split; [exact E|]. clear E. split; [exact ER|]. split; [exact H1|]. split; [exact H2|]. split; [rewrite ED; left; reflexivity|].
  split; [left; apply unprintable_undefined; exact EI|exact E2].
Qed.

(** The same with the trace of the policies. *)
Definition asked_calls : list op := [make "r" 2 0 "DecisionTree,explore=RoundRobin"; start 0 10; give s0 3000000000].

Lemma asked_run : exists w xs, run example_platform (start_world tracing []) asked_calls = Ok (w, xs) /\ forallb explicit asked_calls = true /\
  Exists unprintable (call_features w 0 (Some s0)) /\ step example_platform w (ask_policy s0) = UB.
Proof.
  destruct (run_holds example_platform (start_world tracing []) asked_calls
    (fun s => match step example_platform (fst s) (ask_policy s0) with UB => 
       match call_features (fst s) 0 (Some s0) with x :: _ => match int_of_float x with UB => true | _ => false end | _ => false end | _ => false end)) as (w & xs & E & H); [vm_compute; reflexivity|].
  cbn [fst snd] in H. destruct (step example_platform w (ask_policy s0)) eqn:E2; try discriminate H.
  exists w, xs. split; [exact E|]. clear E. split; [reflexivity|]. split; [|exact E2].
  destruct (call_features w 0 (Some s0)) as [|x f]; [discriminate H|]. destruct (int_of_float x) eqn:EI; try discriminate H.
  left. apply unprintable_undefined. exact EI.
Qed.

(** Files: another file stays, the model files are written. *)
Definition storing_calls : list op := before_storing ++ [OpTrain 0 0 true false].
Definition other_files : list (bytes * bytes) := [($"notes.txt", $"keep")].

Lemma files_example : exists w xs, run example_platform (start_world storing other_files) storing_calls = Ok (w, xs) /\
  List.length (w_files w) = 3%nat /\ file_find ($"notes.txt") (w_files w) = Some ($"keep").
Proof.
  destruct (run_holds example_platform (start_world storing other_files) storing_calls
    (fun s => Nat.eqb (List.length (w_files (fst s))) 3 && match file_find ($"notes.txt") (w_files (fst s)) with Some t => bytes_eqb t ($"keep") | None => false end)) as (w & xs & E & H); [vm_compute; reflexivity|].
  cbn [fst] in H. exists w, xs. split; [exact E|]. clear E. apply andb_prop in H. destruct H as [H1 H2]. split; [apply Nat.eqb_eq; exact H1|].
  destruct (file_find ($"notes.txt") (w_files w)) as [t|]; [|discriminate H2]. apply bytes_eqb_eq in H2. rewrite H2. reflexivity.
Qed.

(** A static policy for a region that has it and for one that has not. *)
Definition static_calls : list op := [make "a" 5 0 ""; make "b" 3 0 ""; start 0 1; ask_policy s0; start 1 1; ask_policy s1].

Lemma static_example : exists w xs, run example_platform (start_world (settings "Static,policy=3" 0 0 0) []) static_calls = Ok (w, xs) /\
  nth_error xs 3 = Some (GotPolicy 3) /\ nth_error xs 5 = Some (GotPolicy 0).
Proof.
  destruct (run_holds example_platform (start_world (settings "Static,policy=3" 0 0 0) []) static_calls
    (fun s => match nth_error (snd s) 3, nth_error (snd s) 5 with Some (GotPolicy a), Some (GotPolicy b) => (a =? 3) && (b =? 0) | _, _ => false end)) as (w & xs & E & H); [vm_compute; reflexivity|].
  cbn [snd] in H. exists w, xs. split; [exact E|]. clear E. destruct (nth_error xs 3) as [[| | |a]|]; try discriminate H. destruct (nth_error xs 5) as [[| | |b]|]; try discriminate H.
  apply andb_prop in H. destruct H as [H1 H2]. apply Z.eqb_eq in H1, H2. subst. split; reflexivity.
Qed.
