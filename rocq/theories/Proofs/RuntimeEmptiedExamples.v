(** An execution ended twice. *)
From Coq Require Import ZArith Bool Ascii String Lia List.
From Flocq Require Import BinarySingleNaN.
From Verif Require Import Model.Base Model.Float Model.DatasetM Model.PolicyModelsM Model.ConfigM Model.RuntimeM
  Spec.RuntimeSpec Spec.EmptiedSpec Proofs.RuntimeExamples Proofs.RuntimePolicyExamples Proofs.OpenCvExamples.
Import ListNotations.
Open Scope Z_scope.

(** One execution with the feature 3, and its end. *)
Definition ended_calls : list op := [make "r" 2 0 "DecisionTree,explore=RoundRobin"; start 0 10; give s0 3; ask_policy s0].
(** In between, another region is executed. *)
Definition other_calls : list op := [make "s" 2 0 "DecisionTree,explore=RoundRobin"; start 1 20; give s1 4; ask_policy s1; finish s1 25; ask_policy s0].

Definition keys_b (R : region) (ks : list (list f32 * Z)) : bool :=
  Nat.eqb (List.length (r_dataset R)) (List.length ks) && forallb (fun q => zs_eqb (bits_key (fst (fst q))) (bits_key (snd q))) (combine (r_dataset R) ks).

Definition twice_b : bool :=
  match run example_platform (start_world plain []) ended_calls with
  | Ok (w, _) =>
      region_b w 0 (fun R => keeps plain R && Nat.eqb (List.length (c_features (r_sync R))) 1) &&
      match step example_platform w (finish s0 15) with
      | Ok (w1, _) =>
          region_b w1 0 (fun R => keys_b R [([f32_of_Z 3], 0)]) &&
          match run example_platform w1 other_calls with
          | Ok (w2, _) =>
              region_b w2 0 (fun R => keeps plain R) &&
              match step example_platform w2 (finish s0 30) with
              | Ok (w3, _) => region_b w3 0 (fun R => keys_b R [([], 1); ([f32_of_Z 3], 0)])
              | _ => false
              end
          | _ => false
          end
      | _ => false
      end
  | _ => false
  end.

(** The keys of a data set. *)
Definition keys_of (R : region) : list (list f32 * Z) := map fst (r_dataset R).

Lemma keys_b_true R ks : keys_b R ks = true -> keys_of R = ks.
Proof.
  unfold keys_b, keys_of. revert ks. induction (r_dataset R) as [|[k t] d IH]; intros [|k' ks] H; cbn in H; try discriminate H; [reflexivity|].
  apply andb_prop in H. destruct H as [L H]. apply andb_prop in H. destruct H as [E H]. apply bits_key_inj in E. cbn. rewrite E, (IH ks); [reflexivity|].
  rewrite L. exact H.
Qed.

Lemma twice_ended : exists w xs R w1 x1 w2 xs2 R2 w3 x3 R3,
  run example_platform (start_world plain []) ended_calls = Ok (w, xs) /\ forallb explicit ended_calls = true /\
  nth_error (w_regions w) 0 = Some R /\ keeps plain R = true /\ List.length (c_features (r_sync R)) = 1%nat /\
  ends_sync 0 (finish s0 15) /\ step example_platform w (finish s0 15) = Ok (w1, x1) /\
  run example_platform w1 other_calls = Ok (w2, xs2) /\ forallb explicit other_calls = true /\ Forall (gives_nothing 0) other_calls /\
  nth_error (w_regions w2) 0 = Some R2 /\ keeps plain R2 = true /\
  step example_platform w2 (finish s0 30) = Ok (w3, x3) /\ nth_error (w_regions w3) 0 = Some R3 /\ keys_of R3 = [([], 1); ([f32_of_Z 3], 0)].
Proof.
  assert (H : twice_b = true) by (vm_compute; reflexivity). unfold twice_b in H.
  destruct (run example_platform (start_world plain []) ended_calls) as [[w xs]| | | |] eqn:E0; try discriminate H.
  apply andb_prop in H. destruct H as [K0 H]. apply region_b_true in K0. destruct K0 as (R & ER & K0). apply andb_prop in K0. destruct K0 as [K0 K0']. apply Nat.eqb_eq in K0'.
  destruct (step example_platform w (finish s0 15)) as [[w1 x1]| | | |] eqn:E1; try discriminate H.
  apply andb_prop in H. destruct H as [K1 H].
  destruct (run example_platform w1 other_calls) as [[w2 xs2]| | | |] eqn:E2; try discriminate H.
  apply andb_prop in H. destruct H as [K2 H]. apply region_b_true in K2. destruct K2 as (R2 & ER2 & K2).
  destruct (step example_platform w2 (finish s0 30)) as [[w3 x3]| | | |] eqn:E3; try discriminate H.
  apply region_b_true in H. destruct H as (R3 & ER3 & K3). apply keys_b_true in K3.
  exists w, xs, R, w1, x1, w2, xs2, R2, w3, x3, R3. split; [reflexivity|]. clear E0. split; [reflexivity|]. split; [exact ER|]. split; [exact K0|]. split; [exact K0'|]. split; [split; reflexivity|].
  split; [exact E1|]. clear E1. split; [exact E2|]. clear E2. split; [reflexivity|]. split.
  { unfold other_calls. repeat apply Forall_cons; try apply Forall_nil; split; cbn; first [discriminate|reflexivity|exact I]. }
  auto.
Qed.
