(** Order facts about binary floats, including infinities and signed zeros. *)
From Coq Require Import List ZArith Bool SpecFloat Reals Lra Lia Psatz.
From Flocq Require Import Core BinarySingleNaN.
From Verif Require Import Model.Float.
Import ListNotations.

Section Order.
Variables prec emax : Z.
Context (Hp : Prec_gt_0 prec) (He : Prec_lt_emax prec emax).
Notation float := (binary_float prec emax).

(** Real value with the infinities placed at +-2^emax, outside all finite values. *)
Definition xval (x : float) : R :=
  match x with
  | B754_infinity false => bpow radix2 emax
  | B754_infinity true => - bpow radix2 emax
  | _ => B2R x
  end.

Lemma xval_finite x : is_finite x = true -> xval x = B2R x.
Proof. destruct x; try reflexivity; discriminate. Qed.

Lemma finite_bound (x : float) : is_finite x = true ->
  (- bpow radix2 emax < B2R x < bpow radix2 emax)%R.
Proof.
  intros _. generalize (abs_B2R_lt_emax prec emax x).
  intros H. apply Rabs_lt_inv in H. lra.
Qed.

Lemma Bltb_xval (x y : float) : is_nan x = false -> is_nan y = false ->
  Bltb x y = Rlt_bool (xval x) (xval y).
Proof.
  intros Hx Hy.
  assert (Hpos := bpow_gt_0 radix2 emax).
  destruct (is_finite x) eqn:Fx, (is_finite y) eqn:Fy.
  - rewrite !xval_finite by assumption. apply Bltb_correct; assumption.
  - generalize (finite_bound x Fx); rewrite (xval_finite x Fx).
    destruct y as [ | [|] | | ]; try discriminate; intros B.
    + cbn [xval]. rewrite Rlt_bool_false by lra. destruct x as [[|]|[|]| |[|]]; try discriminate; reflexivity.
    + cbn [xval]. rewrite Rlt_bool_true by lra. destruct x as [[|]|[|]| |[|]]; try discriminate; reflexivity.
  - generalize (finite_bound y Fy); rewrite (xval_finite y Fy).
    destruct x as [ | [|] | | ]; try discriminate; intros B.
    + cbn [xval]. rewrite Rlt_bool_true by lra. destruct y as [[|]|[|]| |[|]]; try discriminate; reflexivity.
    + cbn [xval]. rewrite Rlt_bool_false by lra. destruct y as [[|]|[|]| |[|]]; try discriminate; reflexivity.
  - destruct x as [ | [|] | | ], y as [ | [|] | | ]; try discriminate; cbn [xval];
    match goal with
    | |- ?b = _ => let v := eval compute in b in change b with v
    end;
    first [ rewrite Rlt_bool_true by lra; reflexivity | rewrite Rlt_bool_false by lra; reflexivity ].
Qed.

Lemma Beqb_xval (x y : float) : is_nan x = false -> is_nan y = false ->
  Beqb x y = Req_bool (xval x) (xval y).
Proof.
  intros Hx Hy.
  assert (Hpos := bpow_gt_0 radix2 emax).
  destruct (is_finite x) eqn:Fx, (is_finite y) eqn:Fy.
  - rewrite !xval_finite by assumption. apply Beqb_correct; assumption.
  - generalize (finite_bound x Fx); rewrite (xval_finite x Fx).
    destruct y as [ | [|] | | ]; try discriminate; intros B; cbn [xval];
    (rewrite Req_bool_false by lra); destruct x as [[|]|[|]| |[|]]; try discriminate; reflexivity.
  - generalize (finite_bound y Fy); rewrite (xval_finite y Fy).
    destruct x as [ | [|] | | ]; try discriminate; intros B; cbn [xval];
    (rewrite Req_bool_false by lra); destruct y as [[|]|[|]| |[|]]; try discriminate; reflexivity.
  - destruct x as [ | [|] | | ], y as [ | [|] | | ]; try discriminate; cbn [xval];
    match goal with
    | |- ?b = _ => let v := eval compute in b in change b with v
    end;
    first [ rewrite Req_bool_true by lra; reflexivity | rewrite Req_bool_false by lra; reflexivity ].
Qed.

Lemma Bleb_xval (x y : float) : is_nan x = false -> is_nan y = false ->
  Bleb x y = Rle_bool (xval x) (xval y).
Proof.
  intros Hx Hy.
  assert (Hpos := bpow_gt_0 radix2 emax).
  destruct (is_finite x) eqn:Fx, (is_finite y) eqn:Fy.
  - rewrite !xval_finite by assumption. apply Bleb_correct; assumption.
  - generalize (finite_bound x Fx); rewrite (xval_finite x Fx).
    destruct y as [ | [|] | | ]; try discriminate; intros B; cbn [xval].
    + rewrite Rle_bool_false by lra. destruct x as [[|]|[|]| |[|]]; try discriminate; reflexivity.
    + rewrite Rle_bool_true by lra. destruct x as [[|]|[|]| |[|]]; try discriminate; reflexivity.
  - generalize (finite_bound y Fy); rewrite (xval_finite y Fy).
    destruct x as [ | [|] | | ]; try discriminate; intros B; cbn [xval].
    + rewrite Rle_bool_true by lra. destruct y as [[|]|[|]| |[|]]; try discriminate; reflexivity.
    + rewrite Rle_bool_false by lra. destruct y as [[|]|[|]| |[|]]; try discriminate; reflexivity.
  - destruct x as [ | [|] | | ], y as [ | [|] | | ]; try discriminate; cbn [xval];
    match goal with
    | |- ?b = _ => let v := eval compute in b in change b with v
    end;
    first [ rewrite Rle_bool_true by lra; reflexivity | rewrite Rle_bool_false by lra; reflexivity ].
Qed.

Lemma Bltb_nan_l (y : float) : Bltb B754_nan y = false.
Proof. destruct y as [[|]|[|]| |[|]]; reflexivity. Qed.
Lemma Bltb_nan_r (x : float) : Bltb x B754_nan = false.
Proof. destruct x as [[|]|[|]| |[|]]; reflexivity. Qed.

Lemma Bltb_irrefl (x : float) : Bltb x x = false.
Proof.
  destruct (is_nan x) eqn:N.
  - destruct x; try discriminate; reflexivity.
  - rewrite Bltb_xval by assumption. apply Rlt_bool_false. lra.
Qed.

Lemma Bltb_not_nan (x y : float) : Bltb x y = true -> is_nan x = false /\ is_nan y = false.
Proof.
  intros H; split.
  - destruct x; try reflexivity. rewrite Bltb_nan_l in H. discriminate.
  - destruct y; try reflexivity. rewrite Bltb_nan_r in H. discriminate.
Qed.

Lemma Bltb_trans (x y z : float) : Bltb x y = true -> Bltb y z = true -> Bltb x z = true.
Proof.
  intros H1 H2. destruct (Bltb_not_nan _ _ H1) as [A B], (Bltb_not_nan _ _ H2) as [_ C].
  rewrite Bltb_xval in * by assumption.
  apply Rlt_bool_true. revert H1 H2.
  case Rlt_bool_spec; [intros a _|discriminate]. case Rlt_bool_spec; [intros b _|discriminate]. lra.
Qed.

Lemma Bltb_asym (x y : float) : Bltb x y = true -> Bltb y x = false.
Proof.
  intros H. destruct (Bltb y x) eqn:E; auto.
  rewrite <- (Bltb_irrefl x). symmetry. eapply Bltb_trans; eauto.
Qed.
End Order.

Arguments xval {prec emax} x.

Ltac rbool :=
  repeat match goal with
  | H : Rlt_bool ?a ?b = true |- _ =>
      let H' := fresh in assert (H' : (a < b)%R) by (revert H; case Rlt_bool_spec; [auto|discriminate]); clear H
  | H : Rlt_bool ?a ?b = false |- _ =>
      let H' := fresh in assert (H' : (b <= a)%R) by (revert H; case Rlt_bool_spec; [discriminate|auto]); clear H
  | H : Rle_bool ?a ?b = true |- _ =>
      let H' := fresh in assert (H' : (a <= b)%R) by (revert H; case Rle_bool_spec; [auto|discriminate]); clear H
  | H : Rle_bool ?a ?b = false |- _ =>
      let H' := fresh in assert (H' : (b < a)%R) by (revert H; case Rle_bool_spec; [discriminate|auto]); clear H
  | H : Req_bool ?a ?b = true |- _ =>
      let H' := fresh in assert (H' : (a = b)%R) by (revert H; case Req_bool_spec; [auto|discriminate]); clear H
  | H : Req_bool ?a ?b = false |- _ =>
      let H' := fresh in assert (H' : (a <> b)%R) by (revert H; case Req_bool_spec; [discriminate|auto]); clear H
  | |- Rlt_bool _ _ = true => apply Rlt_bool_true
  | |- Rlt_bool _ _ = false => apply Rlt_bool_false
  | |- Rle_bool _ _ = true => apply Rle_bool_true
  | |- Rle_bool _ _ = false => apply Rle_bool_false
  | |- Req_bool _ _ = true => apply Req_bool_true
  | |- Req_bool _ _ = false => apply Req_bool_false
  end.
