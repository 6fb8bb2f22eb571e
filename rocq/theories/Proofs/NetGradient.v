(** The gradients computed by the backward pass are the derivative of the objective. *)
From Coq Require Import Reals List Lia Lra.
From Coquelicot Require Import Coquelicot.
From Flocq Require Import Core.Raux.
From Verif Require Import Model.Base Model.NetM Spec.NetSpec Proofs.NetFacts Proofs.NetReal.
Import ListNotations.
Local Open Scope R_scope.

Lemma shaped_layer_ok {T} (d : T) L n m : shaped_layer L n m ->
  layer_ok L n m (fun j k => nth (at2 n j k) (l_w L) d) (fun j => nth j (l_b L) d).
Proof.
  intros [I O W B _ _ _ _]. constructor; [exact I|exact O|now apply arr2_list|]. rewrite <- B. apply arr1_list.
Qed.

Lemma along_0 P D n h x :
  (forall j, hidden1 n (along P D 0) x j = hidden1 n P x j) /\
  (forall j, hidden2 n h (along P D 0) x j = hidden2 n h P x j) /\
  (forall j, logits n h (along P D 0) x j = logits n h P x j).
Proof.
  assert (H1 : forall j, hidden1 n (along P D 0) x j = hidden1 n P x j).
  { intros j. apply affine_ext; intros; cbn [along p_w1 p_b1]; ring. }
  assert (H2 : forall j, hidden2 n h (along P D 0) x j = hidden2 n h P x j).
  { intros j. apply affine_ext; intros; cbn [along p_w2 p_b2]; try ring. unfold relu; now rewrite H1. }
  split; [exact H1|]. split; [exact H2|].
  intros j. apply affine_ext; intros; cbn [along p_w3 p_b3]; try ring. unfold relu; now rewrite H2.
Qed.

Section Row.
Variables (n h m : nat) (P D : params) (x : nat -> R).
Hypothesis corner : forall j, (j < h)%nat -> hidden1 n P x j <> 0 /\ hidden2 n h P x j <> 0.

Definition dz1 j := sumf n (fun k => p_w1 D j k * x k + p_w1 P j k * 0) + p_b1 D j.
Definition da1 j := dz1 j * gate real_arith (hidden1 n P x j).
Definition dz2 j := sumf h (fun k => p_w2 D j k * relu (hidden1 n P x) k + p_w2 P j k * da1 k) + p_b2 D j.
Definition da2 j := dz2 j * gate real_arith (hidden2 n h P x j).
Definition dz3 j := sumf h (fun k => p_w3 D j k * relu (hidden2 n h P x) k + p_w3 P j k * da2 k) + p_b3 D j.

Lemma derive_1 j : is_derive (fun t => hidden1 n (along P D t) x j) 0 (dz1 j).
Proof.
  apply (derive_affine n (p_w1 P) (p_w1 D) (p_b1 P) (p_b1 D) (fun _ => x) (fun _ => 0)).
  intros k _. apply (is_derive_const (V:=R_NormedModule)).
Qed.

Lemma derive_a1 j : (j < h)%nat -> is_derive (fun t => relu (hidden1 n (along P D t) x) j) 0 (da1 j).
Proof.
  intros J. unfold relu, da1. destruct (along_0 P D n h x) as (E1 & _ & _). rewrite <- E1.
  apply (derive_relu (fun t => hidden1 n (along P D t) x j)); [apply derive_1|].
  rewrite E1. now apply corner.
Qed.

Lemma derive_2 j : is_derive (fun t => hidden2 n h (along P D t) x j) 0 (dz2 j).
Proof.
  pose proof (derive_affine h (p_w2 P) (p_w2 D) (p_b2 P) (p_b2 D) (fun t => relu (hidden1 n (along P D t) x)) da1 j derive_a1) as H.
  destruct (along_0 P D n h x) as (E1 & _ & _).
  unfold dz2. rewrite (sumf_ext h _ (fun k => p_w2 D j k * relu (hidden1 n (along P D 0) x) k + p_w2 P j k * da1 k)).
  - exact H.
  - intros k _. unfold relu. now rewrite E1.
Qed.

Lemma derive_a2 j : (j < h)%nat -> is_derive (fun t => relu (hidden2 n h (along P D t) x) j) 0 (da2 j).
Proof.
  intros J. unfold relu, da2. destruct (along_0 P D n h x) as (_ & E2 & _). rewrite <- E2.
  apply (derive_relu (fun t => hidden2 n h (along P D t) x j)); [apply derive_2|].
  rewrite E2. now apply corner.
Qed.

Lemma derive_3 j : is_derive (fun t => logits n h (along P D t) x j) 0 (dz3 j).
Proof.
  pose proof (derive_affine h (p_w3 P) (p_w3 D) (p_b3 P) (p_b3 D) (fun t => relu (hidden2 n h (along P D t) x)) da2 j derive_a2) as H.
  destruct (along_0 P D n h x) as (_ & E2 & _).
  unfold dz3. rewrite (sumf_ext h _ (fun k => p_w3 D j k * relu (hidden2 n h (along P D 0) x) k + p_w3 P j k * da2 k)).
  - exact H.
  - intros k _. unfold relu. now rewrite E2.
Qed.

Lemma derive_policy a : (a < m)%nat ->
  is_derive (fun t => ln (policy n h m (along P D t) x a)) 0
    (sumf m (fun k => ((if Nat.eqb k a then 1 else 0) - policy n h m P x k) * dz3 k)).
Proof.
  intros L. pose proof (derive_log_softmax m (fun t => logits n h (along P D t) x) dz3 a L (fun k _ => derive_3 k)) as H.
  destruct (along_0 P D n h x) as (_ & _ & E3).
  rewrite (sumf_ext m _ (fun k => ((if Nat.eqb k a then 1 else 0) - softmax m (logits n h (along P D 0) x) k) * dz3 k)).
  - exact H.
  - intros k K. unfold policy. rewrite (softmax_ext m _ _ k (fun q _ => E3 q) K). reflexivity.
Qed.
End Row.

Section Gradient.
Variables (N : net R) (n h m B : nat) (state : list R) (action : list nat) (reward : list R).
Hypothesis S : shaped N n h m.
Hypothesis Hm : (0 < m)%nat.
Hypothesis HB : (0 < B)%nat.
Hypothesis Ls : length state = (B * n)%nat.
Hypothesis La : length action = B.
Hypothesis Lr : length reward = B.
Hypothesis Ra : forall i, (i < B)%nat -> (nth i action O < m)%nat.

Let P := params_of N.
Let x := mat n state.
Let a := fun i => nth i action O.
Let r := vec reward.

Lemma shaped_1 : layer_ok (layer1 N) n h (p_w1 P) (p_b1 P).
Proof. unfold P, params_of; cbn. rewrite (sl_in _ _ _ (sh_1 _ _ _ _ S)). apply shaped_layer_ok, S. Qed.
Lemma shaped_2 : layer_ok (layer2 N) h h (p_w2 P) (p_b2 P).
Proof. unfold P, params_of; cbn. rewrite (sl_in _ _ _ (sh_2 _ _ _ _ S)). apply shaped_layer_ok, S. Qed.
Lemma shaped_3 : layer_ok (layer3 N) h m (p_w3 P) (p_b3 P).
Proof. unfold P, params_of; cbn. rewrite (sl_in _ _ _ (sh_3 _ _ _ _ S)). apply shaped_layer_ok, S. Qed.
Lemma states_arr : arr2 B n state x.
Proof. apply arr2_list, Ls. Qed.

Let m1 := z1 real_arith n (p_w1 P) (p_b1 P) x.
Let m2 := z2 real_arith n h (p_w1 P) (p_w2 P) (p_b1 P) (p_b2 P) x.
Let m3 := z3 real_arith n h (p_w1 P) (p_w2 P) (p_w3 P) (p_b1 P) (p_b2 P) (p_b3 P) x.

Lemma model_1 i j : m1 i j = hidden1 n P (x i) j.
Proof. apply lin_real. Qed.
Lemma model_2 i j : m2 i j = hidden2 n h P (x i) j.
Proof.
  unfold m2, z2. rewrite lin_real. apply affine_ext; [reflexivity|reflexivity|]. intros k _.
  rewrite rect_real. unfold relu. fold m1. now rewrite model_1.
Qed.
Lemma model_3 i j : m3 i j = logits n h P (x i) j.
Proof.
  unfold m3, z3. rewrite lin_real. apply affine_ext; [reflexivity|reflexivity|]. intros k _.
  rewrite rect_real. unfold relu. fold m2. now rewrite model_2.
Qed.
Lemma model_soft i j : (j < m)%nat -> soft real_arith m (m3 i) j = policy n h m P (x i) j.
Proof. intros J. rewrite soft_real by exact Hm. apply softmax_ext; [intros; apply model_3|exact J]. Qed.

Lemma forward_policy : net_forward real_arith N state B = Ok (tab2 B m (fun i => policy n h m P (x i))).
Proof.
  rewrite (net_forward_ok real_arith N n h m _ _ _ _ _ _ shaped_1 shaped_2 shaped_3 Hm B state x states_arr).
  f_equal. apply tab2_ext; intros i j I J. now apply model_soft.
Qed.

Let k3 := c3 real_arith n h m (p_w1 P) (p_w2 P) (p_w3 P) (p_b1 P) (p_b2 P) (p_b3 P) B x a r.
Let k2 := c2 real_arith n h m (p_w1 P) (p_w2 P) (p_w3 P) (p_b1 P) (p_b2 P) (p_b3 P) B x a r.
Let k1 := c1 real_arith n h m (p_w1 P) (p_w2 P) (p_w3 P) (p_b1 P) (p_b2 P) (p_b3 P) B x a r.

Lemma chain_3 i j : (j < m)%nat ->
  k3 i j = / INR B * r i * ((if Nat.eqb j (a i) then 1 else 0) - policy n h m P (x i) j).
Proof.
  intros J. unfold k3, c3, loss_cell. fold m3. rewrite model_soft by exact J.
  cbn [n_opp n_mul n_div n_nat n_add real_arith]. assert (0 < INR B) by (apply lt_0_INR; lia).
  destruct (Nat.eqb j (a i)); field; lra.
Qed.
Lemma chain_2 i j : k2 i j = sumf m (fun q => k3 i q * p_w3 P q j) * gate real_arith (hidden2 n h P (x i) j).
Proof. unfold k2, c2. rewrite total_sumf. fold k3 m2. now rewrite model_2. Qed.
Lemma chain_1 i j : k1 i j = sumf h (fun q => k2 i q * p_w2 P q j) * gate real_arith (hidden1 n P (x i) j).
Proof. unfold k1, c1. rewrite total_sumf. fold k2 m1. now rewrite model_1. Qed.

Lemma mat_tab r' c' f j k : (j < r')%nat -> (k < c')%nat -> mat c' (tab2 r' c' f) j k = f j k.
Proof. intros J K. unfold mat. apply nth_error_nth. now apply arr2_tab2. Qed.
Lemma vec_tab r' f j : (j < r')%nat -> vec (tab1 r' f) j = f j.
Proof. intros J. unfold vec. apply nth_error_nth. now apply arr1_tab1. Qed.

Lemma dot2_ext r' c' f f' g : (forall j k, (j < r')%nat -> (k < c')%nat -> f j k = f' j k) -> dot2 r' c' f g = dot2 r' c' f' g.
Proof. intros E. apply sumf_ext; intros j J. apply sumf_ext; intros k K. now rewrite E. Qed.
Lemma dot1_ext r' f f' g : (forall j, (j < r')%nat -> f j = f' j) -> dot1 r' f g = dot1 r' f' g.
Proof. intros E. apply sumf_ext; intros j J. now rewrite E. Qed.

Lemma gradient_correct : off_corner n h P B x ->
  exists G, net_gradients real_arith N state action reward B = Ok G /\
  forall D, is_derive (fun t => objective n h m (along P D t) B x a r) 0 (pairing n h m (grads_params n h G) D).
Proof.
  intros C.
  eexists. split.
  { eapply (net_gradients_ok real_arith N n h m _ _ _ _ _ _ shaped_1 shaped_2 shaped_3 Hm B state x states_arr action a reward r).
    - rewrite <- La. apply arr1_list.
    - exact Ra.
    - rewrite <- Lr. apply arr1_list. }
  intros D. fold k1 k2 k3 m1 m2.
  set (Z1 := fun i => dz1 n P D (x i)). set (Z2 := fun i => dz2 n h P D (x i)). set (Z3 := fun i => dz3 n h P D (x i)).
  assert (E : sumf B (fun i => sumf m (fun j => k3 i j * Z3 i j)) =
     / INR B * sumf B (fun i => r i * sumf m (fun k => ((if Nat.eqb k (a i) then 1 else 0) - policy n h m P (x i) k) * Z3 i k))).
  { rewrite <- sumf_scal. apply sumf_ext; intros i _. rewrite <- Rmult_assoc, <- sumf_scal. apply sumf_ext; intros j J.
    rewrite chain_3 by exact J. ring. }
  assert (F : pairing n h m (grads_params n h
     (mkGrads (tab2 h n (fun j k => total real_arith B (fun i => n_mul real_arith (k1 i j) (x i k)))) (tab1 h (fun j => total real_arith B (fun i => k1 i j))),
      mkGrads (tab2 h h (fun j k => total real_arith B (fun i => n_mul real_arith (k2 i j) (rect real_arith (m1 i) k)))) (tab1 h (fun j => total real_arith B (fun i => k2 i j))),
      mkGrads (tab2 m h (fun j k => total real_arith B (fun i => n_mul real_arith (k3 i j) (rect real_arith (m2 i) k)))) (tab1 m (fun j => total real_arith B (fun i => k3 i j))))) D
     = sumf B (fun i => sumf m (fun j => k3 i j * Z3 i j))).
  { unfold pairing, grads_params. cbn [p_w1 p_b1 p_w2 p_b2 p_w3 p_b3 g_w g_b].
    rewrite (dot2_ext h n _ (fun j k => sumf B (fun i => k1 i j * x i k))).
    2:{ intros j k J K. rewrite mat_tab, total_sumf by assumption. reflexivity. }
    rewrite (dot2_ext h h _ (fun j k => sumf B (fun i => k2 i j * relu (hidden1 n P (x i)) k))).
    2:{ intros j k J K. rewrite mat_tab, total_sumf by assumption. apply sumf_ext; intros i _.
        rewrite rect_real. unfold relu. rewrite model_1. reflexivity. }
    rewrite (dot2_ext m h _ (fun j k => sumf B (fun i => k3 i j * relu (hidden2 n h P (x i)) k))).
    2:{ intros j k J K. rewrite mat_tab, total_sumf by assumption. apply sumf_ext; intros i _.
        rewrite rect_real. unfold relu. rewrite model_2. reflexivity. }
    rewrite (dot1_ext h (vec (tab1 h (fun j => total real_arith B (fun i => k1 i j)))) (fun j => sumf B (fun i => k1 i j)))
      by (intros j J; rewrite vec_tab, total_sumf by assumption; reflexivity).
    rewrite (dot1_ext h (vec (tab1 h (fun j => total real_arith B (fun i => k2 i j)))) (fun j => sumf B (fun i => k2 i j)))
      by (intros j J; rewrite vec_tab, total_sumf by assumption; reflexivity).
    rewrite (dot1_ext m (vec (tab1 m (fun j => total real_arith B (fun i => k3 i j)))) (fun j => sumf B (fun i => k3 i j)))
      by (intros j J; rewrite vec_tab, total_sumf by assumption; reflexivity).
    unfold Z3, dz3. rewrite (adjoint B h m k3 (fun i => relu (hidden2 n h P (x i))) (fun i => da2 n h P D (x i)) (p_w3 P) (p_w3 D) (p_b3 D)).
    rewrite (sumf_ext B _ (fun i => sumf h (fun j => k2 i j * Z2 i j))).
    2:{ intros i _. apply sumf_ext; intros j _. rewrite chain_2. unfold da2, Z2. ring. }
    unfold Z2, dz2. rewrite (adjoint B h h k2 (fun i => relu (hidden1 n P (x i))) (fun i => da1 n P D (x i)) (p_w2 P) (p_w2 D) (p_b2 D)).
    rewrite (sumf_ext B (fun i => sumf h (fun k => sumf h (fun j => k2 i j * p_w2 P j k) * da1 n P D (x i) k))
                        (fun i => sumf h (fun j => k1 i j * Z1 i j))).
    2:{ intros i _. apply sumf_ext; intros j _. rewrite chain_1. unfold da1, Z1. ring. }
    unfold Z1, dz1. rewrite (adjoint B n h k1 x (fun _ _ => 0) (p_w1 P) (p_w1 D) (p_b1 D)).
    rewrite (sumf_ext B (fun i => sumf n (fun k => sumf h (fun j => k1 i j * p_w1 P j k) * 0)) (fun _ => 0)).
    2:{ intros i _. rewrite (sumf_ext n _ (fun _ => 0)) by (intros; ring). apply sumf_zero. }
    rewrite sumf_zero. ring. }
  rewrite F, E. clear E F.
  unfold objective.
  apply is_derive_scal.
  apply (is_derive_sumf B (fun t i => r i * ln (policy n h m (along P D t) (x i) (a i)))). intros i I.
  apply is_derive_scal.
  apply derive_policy; [intros j J; now apply C|]. now apply Ra.
Qed.
End Gradient.
