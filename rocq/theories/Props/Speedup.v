(** C150: the speedups analyze-traces.py prints. *)
From Coq Require Import List ZArith Bool Ascii String Reals Permutation.
From Flocq Require Import Core BinarySingleNaN.
From Verif Require Import Model.Base Model.Float Model.Decimal Model.ConfigM Model.RuntimeM Model.CreateDatasetM Model.WriteOptM Model.AnalyzeM Model.SpeedupM
  Spec.DatasetSpec Spec.RuntimeSpec Spec.CreateDatasetSpec Spec.AnalyzeSpec Spec.WriteOptSpec Spec.SpeedupSpec
  Proofs.AnalyzeExamples Proofs.SpeedupFacts Proofs.SpeedupExamples.
From Coq Require Import List.
Import ListNotations.
Open Scope nat_scope.

(** A speedup is at least 1 exactly when the model took no longer than Static,0, or than every static policy; rounding never
    hides a difference. The one over the best static policy is never the greater of the two. *)
Theorem C150_speedups : forall num data rank n l t, 0 < n -> static_times num data rank n = Ok l -> Forall (fun kv => ordinary (snd kv)) l -> ordinary_pair t ->
  exists a b default, speedups l t = Ok (a, b) /\ is_finite a = true /\ is_finite b = true /\ In ($"Static,0", default) l /\
    (1 <= B2R a <-> overall t <= B2R default)%R /\
    ((1 <= B2R b)%R <-> forall kv, In kv l -> (overall t <= B2R (snd kv))%R) /\
    (B2R b <= B2R a)%R.
Proof. exact speedups_say. Qed.
Example C150_speedups_example : ordinary_pair trained /\ exists data l a b, load_traces two_dir (static_settings 2) = Ok data /\ static_times whole data 0 2 = Ok l /\
  Forall (fun kv => ordinary (snd kv)) l /\ speedups l trained = Ok (a, b) /\ eq64 a (div64 (f64_of_Z 5) (f64_of_Z 2)) = true /\ eq64 b (div64 (f64_of_Z 2) (f64_of_Z 5)) = true.
Proof. split; [exact trained_ordinary|exact two_speedups_ok]. Qed.
Print Assumptions C150_speedups.

(** A rank on which nothing was measured ends the script: it divides zero by zero. *)
Theorem C150_idle : forall num n ss dir rank s, campaign n ss dir -> idle ss rank -> arranged (rows_of num ss) rank s ->
  exists data l, load_traces dir (static_settings n) = Ok data /\ static_times num data rank n = Ok l /\ Forall (fun kv => snd kv = zero64) l /\
    speedups l (opt_time s, zero64) = Throw.
Proof. exact idle_throws. Qed.
Example C150_idle_example : campaign 2 two_runs two_dir /\ idle two_runs 1 /\ arranged (rows_of whole two_runs) 1 [] /\ ~ idle two_runs 0.
Proof.
  split; [exact two_campaign|]. split; [exact two_idle|]. split; [exact two_none|]. intros I. apply (I 0%Z ($"a") 0%Z).
  exists (ran 0 2 "Static,0" "a" [took 0 0 5]), (took 0 0 5). repeat split; left; reflexivity.
Qed.
Print Assumptions C150_idle.

(** So does a model under which no time was recorded on the rank, whatever the static policies took. *)
Theorem C150_untimed : forall l x y, is_finite x = true -> is_finite y = true -> B2R x = 0%R -> B2R y = 0%R -> speedups l (x, y) = Throw.
Proof. exact zero_throws. Qed.
Example C150_untimed_example : exists data l, load_traces two_dir (static_settings 2) = Ok data /\ static_times whole data 0 2 = Ok l /\
  Forall (fun kv => ordinary (snd kv)) l /\ List.length l = 2 /\ speedups l (zero64, zero64) = Throw.
Proof. exact two_untimed. Qed.
Print Assumptions C150_untimed.
