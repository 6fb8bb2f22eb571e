(** A trace for which the relaxed accuracy counts one execution of two. *)
From Coq Require Import List ZArith Bool Ascii String Lia Permutation Reals Lra.
From Flocq Require Import Core BinarySingleNaN.
From Verif Require Import Model.Base Model.Float Model.Decimal Model.DatasetM Model.RuntimeM Model.CreateDatasetM Model.AnalyzeM Model.WriteOptM Model.AccuracyM
  Spec.DatasetSpec Spec.RuntimeSpec Spec.CreateDatasetSpec Spec.AnalyzeSpec Spec.WriteOptSpec Spec.AccuracySpec
  Proofs.KokkosDoubles Proofs.RuntimeExamples Proofs.AnalyzeExamples Proofs.AccuracyExamples.
From Coq Require Import List.
Import ListNotations.
Local Open Scope Z_scope.

(** Policy 1 is best with 4. Policy 0 took as long in one execution, and less in the other. *)
Definition relaxed_trace : trace := mkTrace 0 ($"DecisionTree") ($"a") 0 [took 0 0 4; took 1 0 3].
Definition relaxed_dir : list (bytes * bytes) := [file_under ($"DecisionTree,explore=RoundRobin") relaxed_trace].
Lemma relaxed_there : explorations ($"RoundRobin") [relaxed_trace] relaxed_dir.
Proof.
  constructor.
  - discriminate.
  - apply Forall_cons; [|apply Forall_nil]. constructor; [apply plain_field; reflexivity|apply plain_field; reflexivity|repeat constructor].
  - repeat constructor.
  - exists []. split; [apply Permutation_refl|constructor].
Qed.
Lemma small_moderate z : (1 <= z < 2 ^ 53)%Z -> moderate (f64_of_Z z).
Proof.
  intros H. destruct (f64_of_Z_spec z) as [F E]; [lia|]. split; [exact F|]. rewrite E. split.
  - apply Rle_trans with (bpow radix2 0); [apply bpow_le; lia|]. cbn [bpow]. apply IZR_le. lia.
  - apply Rle_trans with (bpow radix2 53); [|apply bpow_le; lia]. rewrite <- (IZR_Zpower radix2) by lia. apply IZR_le. change (Z.pow radix2 53) with (2 ^ 53)%Z. lia.
Qed.
Lemma both_moderate r : In r both_rows -> moderate (o_time r).
Proof. intros [<-|[<-|[<-|[<-|[]]]]]; apply small_moderate; lia. Qed.
Lemma relaxed_once : NoDup (map (fun x => (fst x, e_index (snd x))) (executions_on 0 [relaxed_trace])).
Proof. repeat constructor; cbn; intuition discriminate. Qed.
Lemma relaxed_finite : Forall (fun x => is_finite (whole (metric_text (snd x))) = true /\ (0 <= B2R (whole (metric_text (snd x))) <= bpow radix2 500)%R) (executions_on 0 [relaxed_trace]).
Proof.
  assert (M : forall i z s, metric_text (took i 0 z) = $s -> 1 <= digits_val ($s) < 2 ^ 53 -> is_finite (whole (metric_text (took i 0 z))) = true /\ (0 <= B2R (whole (metric_text (took i 0 z))) <= bpow radix2 500)%R).
  { intros i z s E H. rewrite E. unfold whole. destruct (small_moderate _ H) as [F [L U]]. split; [exact F|]. split; [|exact U]. apply Rle_trans with (2 := L). apply bpow_ge_0. }
  change (executions_on 0 [relaxed_trace]) with [($"a", took 0 0 4); ($"a", took 1 0 3)].
  constructor; [|constructor; [|constructor]]; cbn [snd].
  - apply (M 0 4 "4"%string); [vm_compute; reflexivity|vm_compute; split; [intros Q; discriminate Q|reflexivity]].
  - apply (M 1 3 "3"%string); [vm_compute; reflexivity|vm_compute; split; [intros Q; discriminate Q|reflexivity]].
Qed.
Definition relaxed_is (dir : list (bytes * bytes)) (ex : string) (sorted : list opt_row) (a : nat) : bool :=
  match load_traces dir [$ex] with
  | Ok data => match compute_relaxed whole data (drop_duplicates sorted) 0 ($"DecisionTree") with Ok x => Nat.eqb x a | _ => false end
  | _ => false
  end.
Lemma relaxed_half : accuracy_is relaxed_dir "RoundRobin" both_sorted 0 2 && relaxed_is relaxed_dir "RoundRobin" both_sorted 1 = true.
Proof. vm_compute. reflexivity. Qed.
Lemma off_quarter : off_by (f64_of_Z 4) (f64_of_Z 3) = 0.25%R /\ off_by (f64_of_Z 4) (f64_of_Z 4) = 0%R.
Proof.
  destruct (f64_of_Z_spec 4) as [_ E4]; [lia|]. destruct (f64_of_Z_spec 3) as [_ E3]; [lia|]. unfold off_by. rewrite E4, E3. split.
  - rewrite Rabs_pos_eq by lra. lra.
  - rewrite Rminus_diag_eq by reflexivity. rewrite Rabs_R0. lra.
Qed.
