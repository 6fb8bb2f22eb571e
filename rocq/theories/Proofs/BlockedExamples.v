(** Concrete runs for Props/Blocked.v. *)
From Coq Require Import ZArith Bool Ascii String Lia List.
From Flocq Require Import BinarySingleNaN.
From Verif Require Import Model.Base Model.Float Model.DatasetM Model.ForestM Model.PolicyModelsM Model.ConfigM Model.RuntimeM
  Spec.StartupSpec Spec.RuntimeSpec Spec.BlockedSpec Proofs.ModelStringFacts Proofs.RuntimeExamples Proofs.RuntimePolicyExamples.
Import ListNotations.
Open Scope Z_scope.

(** Retraining enabled, otherwise the default settings. *)
Definition retraining : config :=
  mkConfig ($"Static,policy=0") 0 1 0 1 0 0 0 0 0 0 0 1 one32 half32 0 0 0 ($".apollo") ($".apollo/datasets") ($".apollo/traces") ($".apollo/models").

(** A region that is to be trained with two measurements; the second execution is about to end. *)
Definition second_measurement : list op :=
  make "r" 2 2 "DecisionTree,explore=RoundRobin" :: execution 0 1 0 1 ++ [start 0 10; give s0 1; OpGetPolicy 0 (Some s0) fair_draws].
(** Its end. *)
Definition last_end : op := OpEnd 0 (Some s0) (15, 0) None.
(** A single measurement. *)
Definition one_measurement : list op := make "r" 2 0 "DecisionTree,explore=RoundRobin" :: execution 0 1 0 1.

Definition threw (P : platform) (w : world) (os : list op) (o : op) (q : world -> bool) : bool :=
  match run P w os with Ok (v, _) => q v && match step P v o with Throw => true | _ => false end | _ => false end.
Lemma threw_true P w os o q : threw P w os o q = true -> exists v xs, run P w os = Ok (v, xs) /\ q v = true /\ step P v o = Throw.
Proof.
  unfold threw. destruct (run P w os) as [[v xs]| | | |]; try discriminate. intros H. apply andb_prop in H as [H K]. exists v, xs.
  split; [reflexivity|]. split; [exact H|]. destruct (step P v o); try discriminate K; reflexivity.
Qed.

Definition has_data (w : world) (r : nat) : bool := region_b w r (fun R => r_alive R && m_trainable (r_model R) && (0 <? ds_size (r_dataset R))).

Lemma end_throws : Forall (fun c => blocked c /\ exists w xs,
  run example_platform (start_world c []) second_measurement = Ok (w, xs) /\ has_data w 0 = true /\ step example_platform w last_end = Throw) [shared; retraining].
Proof.
  apply Forall_cons; [|apply Forall_cons; [|constructor]].
  - split; [left; reflexivity|]. apply threw_true. vm_compute. reflexivity.
  - split; [right; discriminate|]. apply threw_true. vm_compute. reflexivity.
Qed.

(** With the default settings the same end trains. *)
Lemma end_trains_otherwise : exists w xs, run example_platform (start_world (settings "Static,policy=0" 0 0 0) []) (second_measurement ++ [last_end]) = Ok (w, xs) /\
  region_b w 0 (fun R => negb (m_trainable (r_model R)) && (ds_size (r_dataset R) =? 2)) = true.
Proof. apply (run_holds _ _ _ (fun s => region_b (fst s) 0 _)). vm_compute. reflexivity. Qed.

Lemma train_throws_example : exists w xs R, run example_platform (start_world shared []) one_measurement = Ok (w, xs) /\
  nth_error (w_regions w) 0 = Some R /\ r_alive R = true /\ m_trainable (r_model R) = true /\ 0 < ds_size (r_dataset R).
Proof.
  destruct (run_holds example_platform (start_world shared []) one_measurement (fun s => has_data (fst s) 0)) as (w & xs & E & H); [vm_compute; reflexivity|].
  cbn [fst] in H. apply region_b_true in H as (R & ER & H). apply andb_prop in H as [H K]. apply andb_prop in H as [H T]. apply Z.ltb_lt in K.
  exists w, xs, R. auto.
Qed.

Lemma all_throws_example : exists w xs, run example_platform (start_world retraining []) one_measurement = Ok (w, xs) /\ has_data w 0 = true /\
  step example_platform w (OpTrainAll 0 false) = Throw.
Proof. apply threw_true. vm_compute. reflexivity. Qed.

(** ** No data *)

Lemma no_data_undefined : exists w xs, run example_platform (start_world shared []) [make "r" 2 0 "DecisionTree,explore=RoundRobin"] = Ok (w, xs) /\
  region_b w 0 (fun R => match r_dataset R with [] => match r_model R with MTree _ _ _ _ => true | _ => false end | _ => false end) = true /\
  step example_platform w (OpTrainAll 0 true) = UB.
Proof.
  destruct (run_holds example_platform (start_world shared []) [make "r" 2 0 "DecisionTree,explore=RoundRobin"]
    (fun s => region_b (fst s) 0 (fun R => match r_dataset R with [] => match r_model R with MTree _ _ _ _ => true | _ => false end | _ => false end) &&
      match step example_platform (fst s) (OpTrainAll 0 true) with UB => true | _ => false end)) as (w & xs & E & H); [vm_compute; reflexivity|].
  exists w, xs. split; [exact E|]. clear E. cbn [fst] in H. apply andb_prop in H as [H K]. split; [exact H|].
  destruct (step example_platform w (OpTrainAll 0 true)); try discriminate K; reflexivity.
Qed.

(** With a model for every region the same call does nothing. *)
Lemma no_data_otherwise : exists w xs, run example_platform (start_world (settings "Static,policy=0" 0 0 0) [])
  [make "r" 2 0 "DecisionTree,explore=RoundRobin"; OpTrainAll 0 true] = Ok (w, xs) /\ trainable_b w 0 = true.
Proof. apply (run_holds _ _ _ (fun s => trainable_b (fst s) 0)). vm_compute. reflexivity. Qed.

(** ** Executions still to be collected *)

(** An asynchronous execution that has completed waits to be collected, after one that was measured. *)
Definition completed : list op :=
  one_measurement ++ [start_async 0; give a0 1; ask_policy a0; finish a0 5; OpComplete a0 (f32_of_Z 2000)].

Definition holds_pending (w : world) (pending measured : Z) : bool :=
  region_b w 0 (fun R => (Z.of_nat (List.length (r_pending R)) =? pending) && (ds_size (r_dataset R) =? measured) && negb (m_trainable (r_model R))).

Lemma completed_left : (exists w xs, run example_platform (start_world shared []) (completed ++ [OpTrainAll 0 true]) = Ok (w, xs) /\ holds_pending w 1 1 = true) /\
  (exists w xs, run example_platform (start_world (settings "Static,policy=0" 0 0 0) []) (completed ++ [OpTrainAll 0 true]) = Ok (w, xs) /\ holds_pending w 0 2 = true).
Proof.
  split.
  - apply (run_holds _ _ _ (fun s => holds_pending (fst s) 1 1)). vm_compute. reflexivity.
  - apply (run_holds _ _ _ (fun s => holds_pending (fst s) 0 2)). vm_compute. reflexivity.
Qed.
