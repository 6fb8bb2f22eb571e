(** Runs in which the number of measurements asked for is, and is not, reached. *)
From Coq Require Import ZArith Bool Ascii String Lia List.
From Flocq Require Import BinarySingleNaN.
From Verif Require Import Model.Base Model.Float Model.DatasetM Model.ModelStringM Model.PolicyModelsM Model.ConfigM Model.RuntimeM
  Spec.DatasetSpec Spec.RuntimeSpec Proofs.ModelStringFacts Proofs.RuntimeExamples Proofs.RuntimePolicyExamples Proofs.OpenCvExamples.
Import ListNotations.
Open Scope Z_scope.

(** Four executions with the same features and two policies. *)
Definition few (n : Z) : list op :=
  make "r" 2 n "DecisionTree,explore=RoundRobin" ::
  List.concat (map (fun t => [start 0 t; give s0 3; ask_policy s0; finish s0 (t + 5)]) [10; 20; 30; 40]).

Definition few_b (t : bool) (n : Z) (s : world * list result) : bool :=
  match snd s with GotRegion 0 :: _ => true | _ => false end &&
  match followed 0 (combine (few n) (snd s)) with
  | Some (Idle, ms) => Nat.eqb (List.length ms) 4 && forallb (fun m => zs_eqb (bits_key (m_features m, 0)) (bits_key ([f32_of_Z 3], 0)) && (0 <=? m_policy m) && (m_policy m <? 2)) ms
  | _ => false
  end &&
  region_b (fst s) 0 (fun R => Bool.eqb (m_trainable (r_model R)) t).

(** What such a run gives. *)
Definition few_run (t : bool) (n : Z) : Prop := exists w xs ms R, run example_platform (start_world plain []) (few n) = Ok (w, xs) /\ forallb explicit (few n) = true /\
  In (make "r" 2 n "DecisionTree,explore=RoundRobin", GotRegion 0) (combine (few n) xs) /\ followed 0 (combine (few n) xs) = Some (Idle, ms) /\ List.length ms = 4%nat /\
  Forall (fun m => Forall (fun x : f32 => is_nan x = false) (m_features m) /\ In (m_features m) [[f32_of_Z 3]] /\ 0 <= m_policy m < 2) ms /\
  nth_error (w_regions w) 0 = Some R /\ m_trainable (r_model R) = t.

Lemma few_runs t n : match run example_platform (start_world plain []) (few n) with Ok s => few_b t n s | _ => false end = true -> few_run t n.
Proof.
  intros H. destruct (run_holds example_platform (start_world plain []) (few n) (few_b t n) H) as (w & xs & E & K). clear H.
  unfold few_b in K. cbn [fst snd] in K. apply andb_prop in K. destruct K as [K K3]. apply andb_prop in K. destruct K as [K1 K2]. apply region_b_true in K3. destruct K3 as (R & ER & K3). apply eqb_prop in K3.
  destruct (followed 0 (combine (few n) xs)) as [[[|] ms]|] eqn:F; try discriminate K2. apply andb_prop in K2. destruct K2 as [L K2]. apply Nat.eqb_eq in L.
  exists w, xs, ms, R. split; [exact E|]. clear E. split; [reflexivity|]. split.
  { destruct xs as [|[|[|]| |] xs]; try discriminate K1. left. reflexivity. }
  split; [exact F|]. clear F. split; [exact L|]. split; [|split; [exact ER|exact K3]]. apply Forall_forall. intros m I. rewrite forallb_forall in K2. specialize (K2 m I).
  apply andb_prop in K2. destruct K2 as [K2 P2]. apply andb_prop in K2. destruct K2 as [K2 P1]. apply bits_key_inj in K2. injection K2 as K2. apply Z.leb_le in P1. apply Z.ltb_lt in P2.
  rewrite K2. split; [constructor; [reflexivity|constructor]|]. split; [left; reflexivity|lia].
Qed.

Lemma few_never : few_run true 3.
Proof. apply few_runs. vm_compute. reflexivity. Qed.
Lemma few_trained : few_run false 2.
Proof. apply few_runs. vm_compute. reflexivity. Qed.

(** The settings and the model text the two theorems ask for. *)
Lemma few_settings : cf_global_period plain = 0 /\ cf_region_period plain = 0 /\ cf_persistent plain = 0 /\
  exists ps, parse_policy_model ($"DecisionTree,explore=RoundRobin") = Ok ($"DecisionTree", ps) /\ param_find ($"load") ps = None /\ param_find ($"load-dataset") ps = None.
Proof. split; [reflexivity|]. split; [reflexivity|]. split; [reflexivity|]. eexists. split; [vm_compute; reflexivity|]. split; reflexivity. Qed.

Lemma few_untrained n : (forall st collect, ~ In (OpTrainAll st collect) (few n)) /\ (forall st collect force, ~ In (OpTrain 0 st collect force) (few n)).
Proof. split; intros; cbn; intuition discriminate. Qed.
