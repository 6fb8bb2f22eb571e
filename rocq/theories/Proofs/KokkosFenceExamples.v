(** Concrete calls for Props/KokkosKernels.v. *)
From Coq Require Import ZArith Bool Ascii String Lia List.
From Verif Require Import Model.Base Model.Float Model.DatasetM Model.ModelStringM Model.PolicyModelsM Model.ConfigM Model.RuntimeM Model.KokkosM Spec.RuntimeSpec Spec.KokkosSpec
  Proofs.TreeFacts Proofs.ModelStringFacts Proofs.RuntimeExamples Proofs.RuntimePolicyExamples Proofs.KokkosRuns Proofs.KokkosFences Proofs.KokkosExamples.
Import ListNotations.
Open Scope Z_scope.

(** The tile size alone, as a problem of its own. *)
Definition ask_tile (context t : Z) : kop := KRequest context [(1, VInt 5)] [2] (t, 0) fair_draws no_init.
(** Its context is open while that of the other problem ends. *)
Definition other_ends : list kop := declarations ++ [ask_tile 20 0; ask_kernel 10 (VInt 5) 1].

Lemma other_flushes : flushes 1 other_ends (end_kernel 10 2).
Proof. split; [discriminate|reflexivity]. Qed.

Definition fences_b (K : kokkos) (n : nat) : bool := Nat.eqb (List.length (snd (kernel_begins true K 0))) n.

(** The problem is still explored, its kernels are not fenced. *)
Lemma exploring_unfenced : exists K vss K' vs R, krun example_platform example_hash (started forest_settings [] 1) other_ends = Ok (K, vss) /\
  kernel_begins true K 0 = (0, [0]) /\ kstep example_platform example_hash K (end_kernel 10 2) = Ok (K', vs) /\ flushes 1 other_ends (end_kernel 10 2) /\
  nth_error (w_regions (k_world K')) 0 = Some R /\ m_trainable (r_model R) = true /\ open_problem (other_ends ++ [end_kernel 10 2]) 20 = Some [1; 2] /\
  kernel_begins true K' 0 = (0, []).
Proof.
  destruct (krun_holds forest_settings [] 1 other_ends (fun s => fences_b (fst s) 1 && match kstep example_platform example_hash (fst s) (end_kernel 10 2) with
    | Ok (K', vs) => region_b (k_world K') 0 (fun R => m_trainable (r_model R)) && fences_b K' 0
    | _ => false end)) as (K & vss & E & H); [vm_compute; reflexivity|].
  cbn [fst snd] in H. apply andb_prop in H. destruct H as [H1 H]. destruct (kstep example_platform example_hash K (end_kernel 10 2)) as [[K' vs]| | | |] eqn:E2; try discriminate H.
  apply andb_prop in H. destruct H as [H2 H3]. apply region_b_true in H2. destruct H2 as (R & ER & T). exists K, vss, K', vs, R. split; [exact E|]. clear E.
  unfold fences_b, kernel_begins, invoke_fence in *. cbn [fst snd] in *.
  split; [revert H1; destruct (0 <? k_unconverged K); [reflexivity|intros X; discriminate X]|]. split; [exact E2|]. clear E2. split; [exact other_flushes|]. split; [exact ER|]. split; [exact T|]. split; [reflexivity|].
  revert H3. destruct (0 <? k_unconverged K'); [intros X; discriminate X|reflexivity].
Qed.

Lemma other_newly : newly_met 1 other_ends.
Proof.
  exists 4%nat, (ask_kernel 10 (VInt 5) 1). split; [reflexivity|]. split.
  - exists [1; 2; 3]. split; [reflexivity|]. intros [X|[]]. discriminate.
  - intros j o L G. assert (B : (j < List.length other_ends)%nat) by (apply nth_error_Some; congruence). cbn in B. lia.
Qed.
