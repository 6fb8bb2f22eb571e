(** Training on measurements without features. *)
From Coq Require Import ZArith Bool Ascii String Lia List.
From Flocq Require Import BinarySingleNaN.
From Verif Require Import Model.Base Model.Float Model.DatasetM Model.TreeM Model.PolicyModelsM Model.ConfigM Model.RuntimeM Model.KokkosM
  Spec.DatasetSpec Spec.TreeSpec Spec.InsertionSort Spec.PolicyModelsSpec Spec.RuntimeSpec Spec.KokkosSpec Spec.RaggedSpec
  Proofs.RuntimeExamples Proofs.RuntimePolicyExamples Proofs.RuntimeEmptiedExamples Proofs.KokkosExamples.
Import ListNotations.
Open Scope Z_scope.

(** The second vector is shorter than the first. *)
Definition short_rows : list (list f32) := [[f32_of_Z 1; f32_of_Z 2]; [f32_of_Z 3]].
Lemma short_misfit : misfit short_rows.
Proof.
  exists [f32_of_Z 1; f32_of_Z 2], [[f32_of_Z 3]], [f32_of_Z 3], 1%nat. split; [reflexivity|]. split; [right; left; reflexivity|]. split; [cbn; lia|]. intros x X. discriminate X.
Qed.
(** Vectors of one length with numbers fit. *)
Lemma even_rows_fit : ~ misfit [[f32_of_Z 1]; [f32_of_Z 3]].
Proof.
  intros (f & rest & g & i & E & I & L & N). injection E as <- <-. cbn in L. assert (i = 0%nat) as -> by lia.
  destruct I as [<-|[<-|[]]]; specialize (N _ eq_refl); discriminate N.
Qed.

(** The execution of before, ended twice, and trained on. *)
Definition twice_calls : list op := ended_calls ++ [finish s0 15] ++ other_calls ++ [finish s0 30].

Definition fresh_tree_b (m : model) : bool :=
  match m with
  | MTree _ true t _ => match t_data t, t_classes t, t_root t with [], [], Null => (t_num_features t =? 0) && (t_max_depth t =? 2) | _, _, _ => false end
  | _ => false
  end.
Lemma fresh_tree_true m : fresh_tree_b m = true -> exists np e, m = MTree np true (new_dtree 2) e.
Proof.
  destruct m as [| | | | |np [|] [d c r n md] e| |]; cbn; try discriminate. destruct d; [|discriminate]. destruct c; [|discriminate]. destruct r; [|discriminate].
  intros H. apply andb_prop in H. destruct H as [A B]. apply Z.eqb_eq in A. apply Z.eqb_eq in B. subst. eauto.
Qed.

Definition no_nan_b (R : region) : bool := forallb (fun e => match e with (_, _, m) => negb (is_nan m) end) (ds_to_vector (r_dataset R)).

Lemma trained_on_nothing : exists w xs R np e p0 m0,
  run example_platform (start_world plain []) twice_calls = Ok (w, xs) /\ forallb explicit twice_calls = true /\ nth_error (w_regions w) 0 = Some R /\ r_alive R = true /\
  r_model R = MTree np true (new_dtree 2) e /\ cf_region_model plain <> 0 /\ cf_trace_best plain = 0 /\
  (forall f p m, In (f, p, m) (ds_to_vector (r_dataset R)) -> is_nan m = false) /\ In ([], p0, m0) (ds_to_vector (r_dataset R)) /\
  best_policy_for [] (ds_to_vector (r_dataset R)) 1 /\ best_policy_for [f32_of_Z 3] (ds_to_vector (r_dataset R)) 0 /\
  ds_size (r_dataset R) * (2 * Z.of_nat (List.length (nodup Z.eq_dec (map m_policy (ds_to_vector (r_dataset R))))) + 6) < 2 ^ 22.
Proof.
  destruct (run_holds example_platform (start_world plain []) twice_calls (fun s => region_b (fst s) 0 (fun R => r_alive R && fresh_tree_b (r_model R) && no_nan_b R &&
    best_policy_b [] (ds_to_vector (r_dataset R)) 1 && best_policy_b [f32_of_Z 3] (ds_to_vector (r_dataset R)) 0 && (ds_size (r_dataset R) =? 2)))) as (w & xs & E & H); [vm_compute; reflexivity|].
  cbn [fst snd] in H. apply region_b_true in H. destruct H as (R & ER & H). do 5 (apply andb_prop in H; let K := fresh "K" in destruct H as [H K]).
  apply Z.eqb_eq in K. apply best_policy_true in K0, K1. apply fresh_tree_true in K3. destruct K3 as (np & e & EM).
  assert (X := K1). destruct X as (g & m & I & S & _). destruct g as [|? ?]; [|discriminate S].
  exists w, xs, R, np, e, 1, m. split; [exact E|]. clear E. split; [reflexivity|]. split; [exact ER|]. split; [exact H|]. split; [exact EM|]. split; [discriminate|]. split; [reflexivity|].
  split.
  { intros f p x IN. unfold no_nan_b in K2. rewrite forallb_forall in K2. specialize (K2 _ IN). cbn in K2. destruct (is_nan x); [discriminate K2|reflexivity]. }
  split; [exact I|]. split; [exact K1|]. split; [exact K0|]. rewrite K.
  assert (L : (List.length (nodup Z.eq_dec (map m_policy (ds_to_vector (r_dataset R)))) <= 2)%nat).
  { apply Nat.le_trans with (List.length (map m_policy (ds_to_vector (r_dataset R)))); [apply NoDup_incl_length; [apply NoDup_nodup|intros x X; apply nodup_In in X; exact X]|]. rewrite map_length. unfold ds_to_vector. rewrite map_length. unfold ds_size in K. apply Nat2Z.inj_le. change (Z.of_nat 2) with 2. rewrite <- K. reflexivity. }
  apply inj_le in L. change (Z.of_nat 2) with 2 in L. lia.
Qed.

(** Two contexts of one problem, one inside the other, and another after them: the flush at the last end. *)
Definition tree_settings : config := kokkos_settings "DecisionTree,explore=RoundRobin".
Definition nested_tree_calls : list kop := crossed_calls ++ [end_kernel 11 101; end_kernel 10 200; ask_kernel 12 (VInt 7) 300].
Lemma nested_flush : exists K vss, krun example_platform example_hash (started tree_settings [] 3) nested_tree_calls = Ok (K, vss) /\
  kstep example_platform example_hash K (end_kernel 12 310) = UB.
Proof.
  destruct (krun_holds tree_settings [] 3 nested_tree_calls (fun s => match kstep example_platform example_hash (fst s) (end_kernel 12 310) with UB => true | _ => false end)) as (K & vss & E & H); [vm_compute; reflexivity|].
  cbn [fst snd] in H. exists K, vss. split; [exact E|]. clear E. destruct (kstep example_platform example_hash K (end_kernel 12 310)); try discriminate H. reflexivity.
Qed.
