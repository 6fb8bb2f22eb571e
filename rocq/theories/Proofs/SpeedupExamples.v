(** The speedups of a model that explored for 6 and took 4 when trained, over the two runs of AnalyzeExamples. *)
From Coq Require Import List ZArith Bool Ascii String Reals Lia Lra Permutation.
From Flocq Require Import Core BinarySingleNaN.
From Verif Require Import Model.Base Model.Float Model.Decimal Model.ConfigM Model.RuntimeM Model.CreateDatasetM Model.WriteOptM Model.AnalyzeM Model.SpeedupM
  Spec.DatasetSpec Spec.RuntimeSpec Spec.CreateDatasetSpec Spec.AnalyzeSpec Spec.WriteOptSpec Spec.SpeedupSpec
  Proofs.FloatFacts Proofs.FloatConv Proofs.KokkosDoubles Proofs.AnalyzeFacts Proofs.AnalyzeRuns Proofs.AnalyzeExamples Proofs.SpeedupFacts.
From Coq Require Import List.
Import ListNotations.
Local Open Scope Z_scope.

Definition one_to_thousand (x : f64) : bool := is_finite x && Bleb (f64_of_Z 1) x && Bleb x (f64_of_Z 1000).
Lemma bounds : (bpow radix2 (-500) <= 1)%R /\ (1000 <= bpow radix2 500)%R.
Proof.
  split; [apply (bpow_le radix2 (-500) 0); lia|]. apply Rle_trans with (bpow radix2 10); [cbn; lra|apply bpow_le; lia].
Qed.
Lemma one_to_thousand_ordinary x : one_to_thousand x = true -> ordinary x.
Proof.
  intros H. apply andb_true_iff in H as [H H2]. apply andb_true_iff in H as [F H1].
  destruct (f64_of_Z_spec 1) as [A B]; [lia|]. destruct (f64_of_Z_spec 1000) as [C D]; [lia|].
  apply (ble_R _ _ A F) in H1. apply (ble_R _ _ F C) in H2. rewrite B in H1. rewrite D in H2. destruct bounds. split; [exact F|]. split.
  - apply Rle_trans with 1%R; assumption.
  - apply Rle_trans with 1000%R; assumption.
Qed.
Definition trained : f64 * f64 := (f64_of_Z 6, f64_of_Z 4).
Lemma trained_ordinary : ordinary_pair trained.
Proof.
  unfold ordinary_pair, trained. cbn [fst snd]. destruct (f64_of_Z_spec 6) as [A B]; [lia|]. destruct (f64_of_Z_spec 4) as [C D]; [lia|]. rewrite B, D. destruct bounds.
  split; [exact A|]. split; [exact C|]. repeat split; lra.
Qed.
Definition two_speedups : bool :=
  match load_traces two_dir (static_settings 2) with
  | Ok data => match static_times whole data 0 2 with
      | Ok l => forallb (fun kv => one_to_thousand (snd kv)) l &&
          match speedups l trained with Ok (a, b) => eq64 a (div64 (f64_of_Z 5) (f64_of_Z 2)) && eq64 b (div64 (f64_of_Z 2) (f64_of_Z 5)) | _ => false end
      | _ => false end
  | _ => false
  end.
Lemma two_speedups_ok : exists data l a b, load_traces two_dir (static_settings 2) = Ok data /\ static_times whole data 0 2 = Ok l /\ Forall (fun kv => ordinary (snd kv)) l /\
  speedups l trained = Ok (a, b) /\ eq64 a (div64 (f64_of_Z 5) (f64_of_Z 2)) = true /\ eq64 b (div64 (f64_of_Z 2) (f64_of_Z 5)) = true.
Proof.
  assert (B : two_speedups = true) by (vm_compute; reflexivity). unfold two_speedups in B.
  destruct (load_traces two_dir (static_settings 2)) as [data| | | |] eqn:L; try discriminate B.
  destruct (static_times whole data 0 2) as [l| | | |] eqn:T; try discriminate B. apply andb_true_iff in B as [F B].
  destruct (speedups l trained) as [[a b]| | | |] eqn:S; try discriminate B. apply andb_true_iff in B as [B1 B2].
  exists data, l, a, b. split; [reflexivity|]. split; [exact T|]. split; [|auto].
  apply Forall_forall. intros kv I. apply one_to_thousand_ordinary. rewrite forallb_forall in F. apply F. exact I.
Qed.

Lemma two_idle : idle two_runs 1.
Proof. intros j region idx (s & e & I & _ & R & _). destruct I as [<-|[<-|[<-|[<-|[]]]]]; discriminate R. Qed.
Lemma two_none : arranged (rows_of whole two_runs) 1 [].
Proof. split; [apply Permutation_refl|reflexivity]. Qed.

(** Nothing is recorded for RoundRobin in the traces of the static runs, which took 25 and 4. *)
Lemma two_untimed : exists data l, load_traces two_dir (static_settings 2) = Ok data /\ static_times whole data 0 2 = Ok l /\ Forall (fun kv => ordinary (snd kv)) l /\ List.length l = 2%nat /\
  speedups l (zero64, zero64) = Throw.
Proof.
  destruct two_speedups_ok as (data & l & a & b & L & T & F & S & _). exists data, l. split; [exact L|]. split; [exact T|]. split; [exact F|].
  split; [|apply SpeedupFacts.zero_throws; reflexivity].
  apply (SpeedupFacts.all_names f64 (fun j => execution_time whole data 0 ($"Static," ++ print_Z (Z.of_nat j))) (fun j => $"Static," ++ print_Z (Z.of_nat j))) in T.
  rewrite <- (map_length fst), T, map_length. apply seq_length.
Qed.
