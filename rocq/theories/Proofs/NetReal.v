(** The network over the real numbers: probabilities, derivatives. *)
From Coq Require Import Reals List Lia Lra.
From Coquelicot Require Import Coquelicot.
From Flocq Require Import Core.Raux.
From Verif Require Import Model.Base Model.NetM Spec.NetSpec Proofs.NetFacts.
Import ListNotations.
Local Open Scope R_scope.

(** * Sums *)
Lemma sumf_ext n f g : (forall k, (k < n)%nat -> f k = g k) -> sumf n f = sumf n g.
Proof. intros H; induction n as [|n IH]; cbn; [reflexivity|]. rewrite IH, (H n) by (intros; try apply H; lia). reflexivity. Qed.
Lemma sumf_plus n f g : sumf n (fun k => f k + g k) = sumf n f + sumf n g.
Proof. induction n as [|n IH]; cbn; [lra|]. rewrite IH; lra. Qed.
Lemma sumf_scal n c f : sumf n (fun k => c * f k) = c * sumf n f.
Proof. induction n as [|n IH]; cbn; [lra|]. rewrite IH; lra. Qed.
Lemma sumf_scal_r n c f : sumf n (fun k => f k * c) = sumf n f * c.
Proof. induction n as [|n IH]; cbn; [lra|]. rewrite IH; lra. Qed.
Lemma sumf_zero n : sumf n (fun _ => 0) = 0.
Proof. induction n as [|n IH]; cbn; [lra|]. rewrite IH; lra. Qed.
Lemma sumf_swap n m f : sumf n (fun i => sumf m (fun j => f i j)) = sumf m (fun j => sumf n (fun i => f i j)).
Proof.
  induction n as [|n IH]; cbn [sumf]; [now rewrite sumf_zero|]. rewrite IH. symmetry.
  rewrite <- sumf_plus. reflexivity.
Qed.
Lemma sumf_pos n f : (0 < n)%nat -> (forall k, (k < n)%nat -> 0 < f k) -> 0 < sumf n f.
Proof.
  intros N H. assert (G : forall q, (q <= n)%nat -> 0 <= sumf q f /\ ((0 < q)%nat -> 0 < sumf q f)).
  { induction q as [|q IH]; intros Q; cbn [sumf]; [split; [lra|lia]|].
    destruct IH as [IH _]; [lia|]. specialize (H q ltac:(lia)). split; [lra|intros _; lra]. }
  apply (G n); lia.
Qed.
Lemma sumf_delta n a f : (a < n)%nat -> sumf n (fun k => (if Nat.eqb k a then 1 else 0) * f k) = f a.
Proof.
  induction n as [|n IH]; intros L; [lia|]. cbn [sumf]. destruct (Nat.eq_dec n a) as [->|E].
  - rewrite Nat.eqb_refl. rewrite (sumf_ext a _ (fun _ => 0)).
    + rewrite sumf_zero; lra.
    + intros k K. destruct (Nat.eqb_spec k a); [lia|lra].
  - rewrite IH by lia. destruct (Nat.eqb_spec n a); [lia|lra].
Qed.

Lemma total_sumf n f : total real_arith n f = sumf n f.
Proof.
  unfold total. cbn [n_zero n_add real_arith]. induction n as [|n IH]; [reflexivity|].
  rewrite seq_S, fold_left_app, IH. reflexivity.
Qed.

(** * The model's functions are the mathematical ones *)
Lemma max_real x y : NetM.max real_arith x y = Rmax x y.
Proof.
  unfold NetM.max; cbn [n_lt real_arith]. destruct (Rlt_bool_spec x y) as [H|H].
  - symmetry; apply Rmax_right; lra.
  - symmetry; apply Rmax_left; lra.
Qed.
Lemma lin_real n W b x j : lin real_arith n W b x j = affine n W b x j.
Proof. unfold lin, affine. rewrite total_sumf. reflexivity. Qed.
Lemma rect_real x j : rect real_arith x j = relu x j.
Proof. unfold rect, relu. apply max_real. Qed.

Lemma soft_real m z j : (0 < m)%nat -> soft real_arith m z j = softmax m z j.
Proof.
  intros M. unfold soft, softmax. rewrite total_sumf. set (t := top real_arith m z).
  cbn [n_exp n_sub n_div real_arith].
  rewrite (sumf_ext m _ (fun k => exp (z k) * exp (- t))) by (intros; rewrite <- exp_plus; f_equal; lra).
  rewrite sumf_scal_r. unfold Rminus. rewrite exp_plus.
  assert (0 < sumf m (fun k => exp (z k))) by (apply sumf_pos; [exact M|intros; apply exp_pos]).
  pose proof (exp_pos (- t)). field. lra.
Qed.

Lemma affine_ext n W b x W' b' x' j : (forall k, (k < n)%nat -> W j k = W' j k) -> b j = b' j ->
  (forall k, (k < n)%nat -> x k = x' k) -> affine n W b x j = affine n W' b' x' j.
Proof.
  intros HW Hb Hx. unfold affine. rewrite Hb. f_equal. apply sumf_ext; intros k K. now rewrite HW, Hx.
Qed.
Lemma softmax_ext m z z' j : (forall k, (k < m)%nat -> z k = z' k) -> (j < m)%nat -> softmax m z j = softmax m z' j.
Proof. intros H J. unfold softmax. rewrite (H j J). f_equal. apply sumf_ext; intros k K; now rewrite H. Qed.

Lemma softmax_pos m z j : (0 < m)%nat -> 0 < softmax m z j.
Proof.
  intros M. unfold softmax. apply Rdiv_lt_0_compat; [apply exp_pos|]. apply sumf_pos; [exact M|intros; apply exp_pos].
Qed.
Lemma softmax_sum m z : (0 < m)%nat -> sumf m (softmax m z) = 1.
Proof.
  intros M. unfold softmax. rewrite (sumf_ext m _ (fun j => exp (z j) * / sumf m (fun k => exp (z k)))) by reflexivity.
  rewrite sumf_scal_r. assert (0 < sumf m (fun k => exp (z k))) by (apply sumf_pos; [exact M|intros; apply exp_pos]).
  field; lra.
Qed.

(** * Derivatives *)
Lemma is_derive_sumf n f df t :
  (forall k, (k < n)%nat -> is_derive (fun s => f s k) t (df k)) -> is_derive (fun s => sumf n (f s)) t (sumf n df).
Proof.
  induction n as [|n IH]; intros H; cbn [sumf]; [apply (is_derive_const (V:=R_NormedModule) 0)|].
  apply (is_derive_plus (V:=R_NormedModule)); [apply IH; intros; apply H; lia|apply H; lia].
Qed.

Lemma derive_affine n W D b e (x : R -> nat -> R) dx j :
  (forall k, (k < n)%nat -> is_derive (fun t => x t k) 0 (dx k)) ->
  is_derive (fun t => affine n (fun j k => W j k + t * D j k) (fun j => b j + t * e j) (x t) j) 0
    (sumf n (fun k => D j k * x 0 k + W j k * dx k) + e j).
Proof.
  intros H. unfold affine. apply (is_derive_plus (V:=R_NormedModule)).
  - apply (is_derive_sumf n (fun t k => (W j k + t * D j k) * x t k)). intros k K. specialize (H k K).
    replace (D j k * x 0 k + W j k * dx k) with (D j k * x 0 k + (W j k + 0 * D j k) * dx k) by ring.
    apply (is_derive_mult (K:=R_AbsRing) (fun t => W j k + t * D j k) (fun t => x t k)); [|exact H|intros; apply Rmult_comm].
    auto_derive; [exact I|ring].
  - auto_derive; [exact I|ring].
Qed.

Lemma derive_relu (f : R -> R) d : is_derive f 0 d -> f 0 <> 0 ->
  is_derive (fun t => Rmax (f t) 0) 0 (d * gate real_arith (f 0)).
Proof.
  intros H N. assert (C : continuous f 0) by (apply (ex_derive_continuous (V:=R_NormedModule)); exists d; exact H).
  unfold gate; cbn [n_signbit n_opp n_one n_zero real_arith].
  destruct (Rlt_bool_spec (- f 0) 0) as [P|P].
  - apply (is_derive_ext_loc f); [|now rewrite Rmult_1_r].
    assert (L : locally (f 0) (fun y => 0 < y)) by (apply open_gt; lra).
    apply C in L. unfold filtermap in L. revert L; apply filter_imp; intros t T. rewrite Rmax_left; [reflexivity|lra].
  - apply (is_derive_ext_loc (fun _ => 0)); [|rewrite Rmult_0_r; apply (is_derive_const (V:=R_NormedModule))].
    assert (L : locally (f 0) (fun y => y < 0)) by (apply open_lt; lra).
    apply C in L. unfold filtermap in L. revert L; apply filter_imp; intros t T. rewrite Rmax_right; [reflexivity|lra].
Qed.

Lemma derive_log_softmax m (z : R -> nat -> R) dz a : (a < m)%nat ->
  (forall k, (k < m)%nat -> is_derive (fun t => z t k) 0 (dz k)) ->
  is_derive (fun t => ln (softmax m (z t) a)) 0
    (sumf m (fun k => ((if Nat.eqb k a then 1 else 0) - softmax m (z 0) k) * dz k)).
Proof.
  intros L H. assert (M : (0 < m)%nat) by lia.
  assert (P : forall t, 0 < sumf m (fun k => exp (z t k))) by (intros; apply sumf_pos; [exact M|intros; apply exp_pos]).
  apply (is_derive_ext (fun t => z t a - ln (sumf m (fun k => exp (z t k))))).
  { intros t. unfold softmax, Rdiv. rewrite ln_mult, ln_Rinv, ln_exp; [reflexivity|apply P|apply exp_pos|].
    apply Rinv_0_lt_compat, P. }
  rewrite (sumf_ext m _ (fun k => (if Nat.eqb k a then 1 else 0) * dz k + (- 1) * (softmax m (z 0) k * dz k)))
    by (intros; ring).
  rewrite sumf_plus, sumf_scal, sumf_delta by exact L.
  replace (dz a + -1 * sumf m (fun k => softmax m (z 0) k * dz k))
    with (dz a - sumf m (fun k => softmax m (z 0) k * dz k)) by ring.
  apply (is_derive_minus (V:=R_NormedModule)); [now apply H|].
  rewrite (sumf_ext m _ (fun k => (dz k * exp (z 0 k)) * / sumf m (fun k => exp (z 0 k)))) by (intros; unfold softmax, Rdiv; ring).
  rewrite sumf_scal_r.
  apply (is_derive_comp (K:=R_AbsRing) (V:=R_NormedModule) ln (fun t => sumf m (fun k => exp (z t k)))).
  - apply is_derive_ln, P.
  - apply (is_derive_sumf m (fun t k => exp (z t k))). intros k K.
    apply (is_derive_comp (K:=R_AbsRing) (V:=R_NormedModule) exp (fun t => z t k)); [apply is_derive_exp|now apply H].
Qed.

(** * Transposing a layer: pairing the chained gradient with the change of the outputs *)
Lemma adjoint B n m (c x dx : nat -> nat -> R) (W D : nat -> nat -> R) (e : nat -> R) :
  sumf B (fun i => sumf m (fun j => c i j * (sumf n (fun k => D j k * x i k + W j k * dx i k) + e j))) =
  dot2 m n (fun j k => sumf B (fun i => c i j * x i k)) D + dot1 m (fun j => sumf B (fun i => c i j)) e +
  sumf B (fun i => sumf n (fun k => sumf m (fun j => c i j * W j k) * dx i k)).
Proof.
  unfold dot1, dot2.
  transitivity (sumf B (fun i => sumf m (fun j => sumf n (fun k => c i j * x i k * D j k))) +
                sumf B (fun i => sumf m (fun j => c i j * e j)) +
                sumf B (fun i => sumf m (fun j => sumf n (fun k => c i j * W j k * dx i k)))).
  { rewrite <- !sumf_plus. apply sumf_ext; intros i _. rewrite <- !sumf_plus. apply sumf_ext; intros j _.
    rewrite sumf_plus, Rmult_plus_distr_l, Rmult_plus_distr_l, <- !sumf_scal.
    rewrite (sumf_ext n (fun k => c i j * (D j k * x i k)) (fun k => c i j * x i k * D j k)) by (intros; ring).
    rewrite (sumf_ext n (fun k => c i j * (W j k * dx i k)) (fun k => c i j * W j k * dx i k)) by (intros; ring).
    ring. }
  f_equal; [f_equal|].
  - rewrite sumf_swap. apply sumf_ext; intros j _. rewrite sumf_swap. apply sumf_ext; intros k _. apply sumf_scal_r.
  - rewrite sumf_swap. apply sumf_ext; intros j _. apply sumf_scal_r.
  - apply sumf_ext; intros i _. rewrite sumf_swap. apply sumf_ext; intros k _. apply sumf_scal_r.
Qed.
