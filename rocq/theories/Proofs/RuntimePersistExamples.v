(** Concrete runs used beside C84. *)
From Coq Require Import ZArith Bool Ascii String Lia List Reals.
From Flocq Require Import Core BinarySingleNaN.
From Verif Require Import Model.Base Model.Float Model.DatasetM Model.DatasetIO Model.ModelStringM Model.PolicyModelsM Model.ConfigM Model.RuntimeM
  Spec.DatasetSpec Spec.DecimalSpec Spec.DatasetFileSpec Spec.StartupSpec Spec.RuntimeSpec Proofs.ModelStringFacts Proofs.TreeFacts Proofs.ForestFacts Proofs.RuntimeExamples Proofs.RuntimePolicyExamples
  Proofs.SafeExamples Proofs.RuntimePersist Spec.SafeClient.
Import ListNotations.
Open Scope Z_scope.

Definition keeping : config := settings "Static,policy=0" 0 0 1.
Definition keep_calls : list op :=
  [make "a" 2 0 "DecisionTree,explore=RoundRobin"; OpRegion 2 ($"b") 2 0 ($"DecisionTree,explore=RoundRobin") [] no_init] ++
  execution 0 3 10 15 ++ execution 0 4 20 22 ++
  [start 1 30; give s1 5; give s1 6; OpGetPolicy 1 (Some s1) fair_draws; finish s1 31].

Definition normal64_b (x : f64) : bool := match x with B754_finite _ _ e _ => -1021 <=? e | _ => true end.
Lemma normal64_b_true x : normal64_b x = true -> normal_range x.
Proof.
  destruct x as [| | |s m e B]; cbn [normal64_b normal_range]; auto. intros H. apply Z.leb_le in H.
  apply Rle_trans with (bpow radix2 e); [apply bpow_le; lia|].
  cbn [B2R]. rewrite <- F2R_Zabs, abs_cond_Zopp. cbn [Z.abs]. unfold F2R. cbn [Fnum Fexp].
  rewrite <- (Rmult_1_l (bpow radix2 e)) at 1. apply Rmult_le_compat_r; [apply bpow_ge_0|]. apply IZR_le. lia.
Qed.

Definition meas_b (m : meas) : bool := normal_b (m_features m) && normal64_b (m_metric m).
Lemma meas_b_true m : meas_b m = true -> meas_normal m.
Proof. intros H. apply andb_prop in H. destruct H as [H K]. split; [apply normal_list_b; exact H|apply normal64_b_true; exact K]. Qed.
Definition int_b (z : Z) : bool := (-2147483648 <=? z) && (z <=? 2147483647).
Lemma int_b_true z : int_b z = true -> is_int z.
Proof. unfold int_b, is_int. lia. Qed.

Definition short_b (m : meas) : bool := Nat.leb (List.length (m_features m)) 1 && int_b (m_policy m) && meas_b m.
Definition fits_b (m : meas) : bool := int_b (m_policy m) && meas_b m.
Definition long_b (m : meas) : bool := Nat.leb 2 (List.length (m_features m)).

Definition no_pending_b (w : world) : bool := forallb (fun R => match r_pending R with [] => true | _ => false end) (w_regions w).
Lemma no_pending_true w : no_pending_b w = true -> forall r, pending_of w r = [].
Proof.
  unfold no_pending_b, pending_of. rewrite forallb_forall. intros H r. destruct (nth_error (w_regions w) r) as [R|] eqn:E; [|reflexivity].
  apply nth_error_In in E. specialize (H R E). destruct (r_pending R); [reflexivity|discriminate H].
Qed.

Definition named_b (w : world) : bool :=
  match region_names w with [a; b] => bytes_eqb a ($"a") && bytes_eqb b ($"b") | _ => false end.
Lemma named_true w : named_b w = true -> first_named (region_names w) ($"a") 0 /\ first_named (region_names w) ($"b") 1.
Proof.
  unfold named_b. destruct (region_names w) as [|a [|b [|]]]; try discriminate. intros H. apply andb_prop in H. destruct H as [H K].
  apply bytes_eqb_eq in H, K. subst. split; (split; [reflexivity|]).
  - intros k X. lia.
  - intros [|k] X; [cbn; discriminate|lia].
Qed.

Definition quiet_waits : nat -> list (list (ctxptr * f32)) := fun _ => [].


Definition small_b (R : region) : bool := (ds_size (r_dataset R) <=? 2147483648) && Nat.eqb (List.length (ds_to_vector (r_dataset R))) 2.

Lemma kept_run : exists w xs w' Ra Rb, run example_platform (start_world keeping []) keep_calls = Ok (w, xs) /\ (forall r, pending_of w r = []) /\
  step example_platform w (OpShutdown quiet_waits) = Ok (w', Done) /\
  first_named (region_names w) ($"a") 0 /\ first_named (region_names w) ($"b") 1 /\
  nth_error (w_regions w) 0 = Some Ra /\ nth_error (w_regions w) 1 = Some Rb /\
  (ds_size (r_dataset Ra) <= 2147483648 /\ List.length (ds_to_vector (r_dataset Ra)) = 2%nat /\
   Forall (fun m => (List.length (m_features m) <= 1)%nat /\ is_int (m_policy m) /\ meas_normal m) (ds_to_vector (r_dataset Ra))) /\
  (ds_size (r_dataset Rb) <= 2147483648 /\ Forall (fun m => is_int (m_policy m)) (ds_to_vector (r_dataset Rb)) /\ Forall meas_normal (ds_to_vector (r_dataset Rb)) /\
   Exists (fun m => (2 <= List.length (m_features m))%nat) (ds_to_vector (r_dataset Rb))).
Proof.
  destruct (run_holds example_platform (start_world keeping []) keep_calls
    (fun s => no_pending_b (fst s) && named_b (fst s) && match step example_platform (fst s) (OpShutdown quiet_waits) with Ok (_, Done) => true | _ => false end &&
      region_b (fst s) 0 (fun R => small_b R && forallb short_b (ds_to_vector (r_dataset R))) &&
      region_b (fst s) 1 (fun R => (ds_size (r_dataset R) <=? 2147483648) && forallb fits_b (ds_to_vector (r_dataset R)) && existsb long_b (ds_to_vector (r_dataset R)))))
    as (w & xs & E & H); [vm_compute; reflexivity|].
  cbn [fst] in H. apply andb_prop in H. destruct H as [H H5]. apply andb_prop in H. destruct H as [H H4]. apply andb_prop in H. destruct H as [H H3].
  apply andb_prop in H. destruct H as [H1 H2]. destruct (step example_platform w (OpShutdown quiet_waits)) as [[w' [| | |]]| | | |] eqn:ES; try discriminate H3. clear H3.
  apply region_b_true in H4, H5. destruct H4 as (Ra & Ea & Ha). destruct H5 as (Rb & Eb & Hb). exists w, xs, w', Ra, Rb. split; [exact E|]. clear E.
  split; [apply no_pending_true; exact H1|]. split; [exact ES|]. clear ES. apply named_true in H2. destruct H2 as [N0 N1]. do 2 (split; [assumption|]). do 2 (split; [assumption|]).
  clear Ea Eb N0 N1 H1. apply andb_prop in Ha. destruct Ha as [A1 A2]. apply andb_prop in A1. destruct A1 as [A0 A1]. apply andb_prop in Hb. destruct Hb as [B1 B2]. apply andb_prop in B1. destruct B1 as [B0 B1].
  apply Z.leb_le in A0, B0. apply Nat.eqb_eq in A1. rewrite forallb_forall in A2, B1. apply existsb_exists in B2. split; (split; [assumption|]).
  - split; [exact A1|]. apply Forall_forall. intros m I. specialize (A2 m I). apply andb_prop in A2. destruct A2 as [A2 A3]. apply andb_prop in A2. destruct A2 as [A2 A4].
    apply Nat.leb_le in A2. split; [exact A2|]. split; [apply int_b_true; exact A4|apply meas_b_true; exact A3].
  - split; [|split].
    + apply Forall_forall. intros m I. specialize (B1 m I). apply andb_prop in B1. apply int_b_true, B1.
    + apply Forall_forall. intros m I. specialize (B1 m I). apply andb_prop in B1. apply meas_b_true, B1.
    + apply Exists_exists. destruct B2 as (m & I & B2). apply Nat.leb_le in B2. eauto.
Qed.

(** The run that follows: region a gets its two measurements back, region b ends the program. *)
Lemma next_run : match run example_platform (start_world keeping []) (keep_calls ++ [OpShutdown quiet_waits]) with
  | Ok (w, _) =>
      match step example_platform (start_world keeping (w_files w)) (make "a" 2 0 "DecisionTree,explore=RoundRobin") with
      | Ok (w2, GotRegion 0) => region_b w2 0 (fun R => Nat.eqb (List.length (ds_to_vector (r_dataset R))) 2)
      | _ => false end &&
      match step example_platform (start_world keeping (w_files w)) (OpRegion 2 ($"b") 2 0 ($"DecisionTree,explore=RoundRobin") [] no_init) with Abort => true | _ => false end
  | _ => false end = true.
Proof. vm_compute. reflexivity. Qed.

(** A region destroyed while an asynchronous execution is pending: the wait completes it and it is written. *)
Definition pending_calls : list op :=
  [make "a" 2 0 "DecisionTree,explore=RoundRobin"; start_async 0; give a0 3; ask_policy a0; finish a0 5].
Definition late : list (list (ctxptr * f32)) := [[(a0, f32_of_Z 2000)]].

Lemma destroyed_run : exists w xs w', run example_platform (start_world keeping []) pending_calls = Ok (w, xs) /\ pending_of w 0 = [a0] /\
  step example_platform w (OpDestroy 0 late) = Ok (w', Done) /\
  exists R', nth_error (w_regions w') 0 = Some R' /\ List.length (ds_to_vector (r_dataset R')) = 1%nat.
Proof.
  destruct (run_holds example_platform (start_world keeping []) pending_calls
    (fun s => ctxs_eqb (pending_of (fst s) 0) [a0] && match step example_platform (fst s) (OpDestroy 0 late) with
       Ok (w', Done) => region_b w' 0 (fun R => Nat.eqb (List.length (ds_to_vector (r_dataset R))) 1) | _ => false end)) as (w & xs & E & H); [vm_compute; reflexivity|].
  cbn [fst] in H. apply andb_prop in H. destruct H as [H1 H2]. destruct (step example_platform w (OpDestroy 0 late)) as [[w' [| | |]]| | | |] eqn:ES; try discriminate H2.
  apply region_b_true in H2. destruct H2 as (R & ER & HR). exists w, xs, w'. split; [exact E|]. clear E. split; [apply ctxs_eqb_true; exact H1|].
  split; [first [exact ES|reflexivity]|]. exists R. split; [exact ER|]. apply Nat.eqb_eq. exact HR.
Qed.
