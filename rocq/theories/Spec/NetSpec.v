(** What the policy network of PolicyNet.cpp computes, as ordinary mathematics on real numbers: a network of
    two rectified layers and a softmax layer, and the reward objective that training climbs. *)
From Coq Require Import Reals List.
From Coq Require Export Rtrigo_def Rpower.
From Flocq Require Import Core.Raux.
From Verif Require Import Model.Base Model.NetM.
Import ListNotations.
Local Open Scope R_scope.

(** Exact real arithmetic for the network functions. At 0 the rectifier has no derivative; there the floating
    point program distinguishes 0.0 from -0.0, real numbers cannot, and no statement below speaks of it. *)
Definition real_arith : arith R := {|
  n_zero := 0; n_one := 1; n_eps := / 10 ^ 8; n_nat := INR;
  n_add := Rplus; n_sub := Rminus; n_mul := Rmult; n_div := Rdiv; n_opp := Ropp;
  n_exp := exp; n_sqrt := sqrt; n_pow := powerRZ; n_lt := Rlt_bool; n_signbit := fun x => Rlt_bool x 0 |}.

(** Sum of f 0, ..., f (n-1). *)
Fixpoint sumf (n : nat) (f : nat -> R) : R :=
  match n with O => 0 | S k => sumf k f + f k end.

(** Parameters of a network, as functions of the indices (row, column). *)
Record params := mkParams {
  p_w1 : nat -> nat -> R; p_b1 : nat -> R;
  p_w2 : nat -> nat -> R; p_b2 : nat -> R;
  p_w3 : nat -> nat -> R; p_b3 : nat -> R
}.

Definition affine (n : nat) (W : nat -> nat -> R) (b : nat -> R) (x : nat -> R) (j : nat) : R :=
  sumf n (fun k => W j k * x k) + b j.
Definition relu (x : nat -> R) (j : nat) : R := Rmax (x j) 0.
Definition softmax (m : nat) (z : nat -> R) (j : nat) : R := exp (z j) / sumf m (fun k => exp (z k)).

(** [n] inputs, [h] hidden units in each of the two hidden layers. *)
Definition hidden1 (n : nat) (P : params) (x : nat -> R) := affine n (p_w1 P) (p_b1 P) x.
Definition hidden2 (n h : nat) (P : params) (x : nat -> R) := affine h (p_w2 P) (p_b2 P) (relu (hidden1 n P x)).
Definition logits (n h : nat) (P : params) (x : nat -> R) := affine h (p_w3 P) (p_b3 P) (relu (hidden2 n h P x)).

(** Probability of taking action [j] in state [x] when there are [m] actions. *)
Definition policy (n h m : nat) (P : params) (x : nat -> R) (j : nat) : R := softmax m (logits n h P x) j.

(** Mean over the batch of reward times log-probability of the action taken. *)
Definition objective (n h m : nat) (P : params) (B : nat) (x : nat -> nat -> R) (a : nat -> nat) (r : nat -> R) : R :=
  / INR B * sumf B (fun i => r i * ln (policy n h m P (x i) (a i))).

(** Moving the parameters along a direction. *)
Definition along (P D : params) (t : R) : params := mkParams
  (fun j k => p_w1 P j k + t * p_w1 D j k) (fun j => p_b1 P j + t * p_b1 D j)
  (fun j k => p_w2 P j k + t * p_w2 D j k) (fun j => p_b2 P j + t * p_b2 D j)
  (fun j k => p_w3 P j k + t * p_w3 D j k) (fun j => p_b3 P j + t * p_b3 D j).

(** Reading arrays stored row by row. *)
Definition mat (cols : nat) (a : list R) (j k : nat) : R := nth (at2 cols j k) a 0.
Definition vec (a : list R) (j : nat) : R := nth j a 0.

Definition params_of (N : net R) : params := mkParams
  (mat (l_in (layer1 N)) (l_w (layer1 N))) (vec (l_b (layer1 N)))
  (mat (l_in (layer2 N)) (l_w (layer2 N))) (vec (l_b (layer2 N)))
  (mat (l_in (layer3 N)) (l_w (layer3 N))) (vec (l_b (layer3 N))).

(** Gradients as parameters-shaped data, and their pairing with a direction. *)
Definition grads_params (n h : nat) (G : grads R * grads R * grads R) : params :=
  let '(g1, g2, g3) := G in
  mkParams (mat n (g_w g1)) (vec (g_b g1)) (mat h (g_w g2)) (vec (g_b g2)) (mat h (g_w g3)) (vec (g_b g3)).
Definition dot2 (r c : nat) (f g : nat -> nat -> R) : R := sumf r (fun j => sumf c (fun k => f j k * g j k)).
Definition dot1 (r : nat) (f g : nat -> R) : R := sumf r (fun j => f j * g j).
Definition pairing (n h m : nat) (P D : params) : R :=
  dot2 h n (p_w1 P) (p_w1 D) + dot1 h (p_b1 P) (p_b1 D) +
  dot2 h h (p_w2 P) (p_w2 D) + dot1 h (p_b2 P) (p_b2 D) +
  dot2 m h (p_w3 P) (p_w3 D) + dot1 m (p_b3 P) (p_b3 D).

(** Arrays of the sizes the constructor allocates (over any arithmetic). *)
Record shaped_layer {T} (L : layer T) (n m : nat) : Prop := {
  sl_in : l_in L = n;
  sl_out : l_out L = m;
  sl_w : length (l_w L) = (m * n)%nat;
  sl_b : length (l_b L) = m;
  sl_wm : length (l_wm L) = (m * n)%nat;
  sl_wv : length (l_wv L) = (m * n)%nat;
  sl_bm : length (l_bm L) = m;
  sl_bv : length (l_bv L) = m
}.
Record shaped {T} (N : net T) (n h m : nat) : Prop := {
  sh_1 : shaped_layer (layer1 N) n h;
  sh_2 : shaped_layer (layer2 N) h h;
  sh_3 : shaped_layer (layer3 N) h m
}.

(** No hidden unit sits exactly at the corner of the rectifier. *)
Definition off_corner (n h : nat) (P : params) (B : nat) (x : nat -> nat -> R) : Prop :=
  forall i j, (i < B)%nat -> (j < h)%nat -> hidden1 n P (x i) j <> 0 /\ hidden2 n h P (x i) j <> 0.
