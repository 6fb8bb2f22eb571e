(** Which times are within ten per cent of another. *)
From Coq Require Import ZArith Bool Reals Lia Lra SpecFloat.
From Flocq Require Import Core BinarySingleNaN Relative.
From Verif Require Import Model.Base Model.Float Model.AccuracyM Proofs.FloatFacts Proofs.FloatConv Proofs.KokkosDoubles.
Local Open Scope R_scope.

Lemma unit_small : 0 < bpow radix2 (-53) < / 1000000000000000.
Proof. split; [apply bpow_gt_0|]. cbn. lra. Qed.

Lemma rounded x : bpow radix2 (-1022) <= x -> x * (1 - bpow radix2 (-53)) <= rnd64 x <= x * (1 + bpow radix2 (-53)).
Proof.
  intros B. assert (P := bpow_gt_0 radix2 (-1022)). assert (A : Rabs x = x) by (apply Rabs_pos_eq; lra).
  assert (G := relative_error_N_FLT radix2 (-1074) 53 eq_refl (fun z => negb (Z.even z)) x). rewrite A in G. specialize (G B).
  assert (V : / 2 * bpow radix2 (- (53) + 1) = bpow radix2 (-53)) by (change (/ 2) with (bpow radix2 (-1)); rewrite <- bpow_plus; reflexivity).
  rewrite V in G. apply Rabs_le_inv in G. change (round radix2 (FLT_exp (-1074) 53) (Znearest (fun z => negb (Z.even z))) x) with (rnd64 x) in G. lra.
Qed.
Lemma rounded_below x y : x <= y -> bpow radix2 (-1022) <= y -> rnd64 x <= y * (1 + bpow radix2 (-53)).
Proof. intros L B. apply Rle_trans with (rnd64 y); [apply round_le; [typeclasses eauto|typeclasses eauto|exact L]|]. apply rounded. exact B. Qed.
Lemma rounded_above x y : y <= x -> bpow radix2 (-1022) <= y -> y * (1 - bpow radix2 (-53)) <= rnd64 x.
Proof. intros L B. apply Rle_trans with (rnd64 y); [|apply round_le; [typeclasses eauto|typeclasses eauto|exact L]]. apply rounded. exact B. Qed.
Lemma fmt64_bpow e : (-1074 <= e)%Z -> fmt64 (bpow radix2 e).
Proof. intros H. apply generic_format_bpow. unfold fexp, emin. lia. Qed.

Section Times.
Variables best time : f64.
Hypothesis FB : is_finite best = true.
Hypothesis FT : is_finite time = true.
Hypothesis B : bpow radix2 (-500) <= B2R best <= bpow radix2 500.
Hypothesis T : 0 <= B2R time <= bpow radix2 500.

Definition gap : R := Rabs (B2R best - B2R time).
Lemma gap_small : 0 <= gap <= bpow radix2 500.
Proof. unfold gap. split; [apply Rabs_pos|]. apply Rabs_le. assert (P := bpow_gt_0 radix2 (-500)). lra. Qed.

Lemma hundred : is_finite (f64_of_Z 100) = true /\ B2R (f64_of_Z 100) = 100.
Proof. apply f64_of_Z_spec. lia. Qed.
Lemma ten : is_finite (f64_of_Z 10) = true /\ B2R (f64_of_Z 10) = 10.
Proof. apply f64_of_Z_spec. lia. Qed.

Lemma share_value : within_ten best time = Rle_bool (rnd64 (rnd64 (rnd64 gap * 100) / B2R best)) 10.
Proof.
  unfold within_ten. assert (G := gap_small). assert (PB := bpow_gt_0 radix2 (-500)).
  assert (E : Rabs (rnd64 (B2R best - B2R time)) = rnd64 gap) by (symmetry; apply round_NE_abs; typeclasses eauto).
  assert (R1 : 0 <= rnd64 gap <= bpow radix2 500) by (apply rnd64_between; [apply generic_format_0|apply fmt64_bpow; lia|exact G]).
  destruct (sub64_spec best time FB FT) as [S1 S2]. { rewrite E. apply Rle_lt_trans with (bpow radix2 500); [apply Rabs_le in R1 || lra|apply bpow_lt; lia]. }
  destruct hundred as [H1 H2].
  assert (A1 : is_finite (Babs (sub64 best time)) = true) by (rewrite is_finite_Babs; exact S1).
  assert (A2 : B2R (Babs (sub64 best time)) = rnd64 gap) by (rewrite B2R_Babs, S2; exact E).
  assert (P7 : bpow radix2 507 = bpow radix2 500 * 128) by (change 128 with (bpow radix2 7); rewrite <- bpow_plus; reflexivity).
  assert (R2 : 0 <= rnd64 (rnd64 gap * 100) <= bpow radix2 507).
  { apply rnd64_between; [apply generic_format_0|apply fmt64_bpow; lia|]. rewrite P7. assert (Q := bpow_gt_0 radix2 500). lra. }
  destruct (mul64_spec (Babs (sub64 best time)) (f64_of_Z 100) A1 H1) as [M1 M2]. { rewrite A2, H2. rewrite Rabs_pos_eq by lra. apply Rle_lt_trans with (bpow radix2 507); [lra|apply bpow_lt; lia]. }
  rewrite A2, H2 in M2.
  assert (R3 : 0 <= rnd64 (rnd64 (rnd64 gap * 100) / B2R best) <= bpow radix2 1007).
  { apply rnd64_between; [apply generic_format_0|apply fmt64_bpow; lia|]. split; [apply Rmult_le_pos; [lra|]; apply Rlt_le, Rinv_0_lt_compat; lra|].
    apply Rmult_le_reg_r with (B2R best); [lra|]. unfold Rdiv. rewrite Rmult_assoc, Rinv_l, Rmult_1_r by lra. apply Rle_trans with (bpow radix2 507); [lra|].
    replace 507%Z with (1007 + -500)%Z by reflexivity. rewrite bpow_plus. apply Rmult_le_compat_l; [apply bpow_ge_0|lra]. }
  destruct (div64_spec (mul64 (Babs (sub64 best time)) (f64_of_Z 100)) best M1) as [D1 D2]; [lra| |].
  { rewrite M2. rewrite Rabs_pos_eq by lra. apply Rle_lt_trans with (bpow radix2 1007); [lra|apply bpow_lt; lia]. }
  rewrite M2 in D2. destruct ten as [T1 T2]. rewrite (Bleb_correct 53 1024 _ _ D1 T1), D2, T2. reflexivity.
Qed.

Lemma big c : / 1000 <= c -> bpow radix2 (-1022) <= c * B2R best.
Proof.
  intros C. assert (P := bpow_gt_0 radix2 (-500)). apply Rle_trans with (bpow radix2 (-10) * bpow radix2 (-500)); [rewrite <- bpow_plus; apply bpow_le; lia|].
  apply Rmult_le_compat; [apply bpow_ge_0|apply bpow_ge_0| |lra]. cbn. lra.
Qed.

Theorem near_counted : gap <= 0.0999999 * B2R best -> within_ten best time = true.
Proof.
  intros L. rewrite share_value. assert (U := unit_small). set (u := bpow radix2 (-53)) in *. assert (PB := bpow_gt_0 radix2 (-500)).
  assert (X1 : rnd64 gap <= 0.0999999 * B2R best * (1 + u)) by (apply rounded_below; [exact L|apply big; lra]).
  assert (X2 : rnd64 (rnd64 gap * 100) <= 9.9999902 * B2R best).
  { apply Rle_trans with (9.9999901 * B2R best * (1 + u)); [apply rounded_below; [nra|apply big; lra]|nra]. }
  assert (X3 : rnd64 (rnd64 (rnd64 gap * 100) / B2R best) <= 10).
  { apply Rle_trans with (9.9999902 * (1 + u)); [|lra]. apply rounded_below.
    - apply Rmult_le_reg_r with (B2R best); [lra|]. unfold Rdiv. rewrite Rmult_assoc, Rinv_l, Rmult_1_r by lra. exact X2.
    - apply Rle_trans with (bpow radix2 0); [apply bpow_le; lia|cbn; lra]. }
  apply Rle_bool_true. exact X3.
Qed.

Theorem far_not_counted : 0.1000001 * B2R best <= gap -> within_ten best time = false.
Proof.
  intros L. rewrite share_value. assert (U := unit_small). set (u := bpow radix2 (-53)) in *. assert (PB := bpow_gt_0 radix2 (-500)).
  assert (X1 : 0.1000001 * B2R best * (1 - u) <= rnd64 gap) by (apply rounded_above; [exact L|apply big; lra]).
  assert (X2 : 10.0000098 * B2R best <= rnd64 (rnd64 gap * 100)).
  { apply Rle_trans with (10.0000099 * B2R best * (1 - u)); [nra|]. apply rounded_above; [nra|apply big; lra]. }
  assert (X3 : 10.0000098 * (1 - u) <= rnd64 (rnd64 (rnd64 gap * 100) / B2R best)).
  { apply rounded_above.
    - apply Rmult_le_reg_r with (B2R best); [lra|]. unfold Rdiv. rewrite Rmult_assoc, Rinv_l, Rmult_1_r by lra. exact X2.
    - apply Rle_trans with (bpow radix2 0); [apply bpow_le; lia|cbn; lra]. }
  apply Rle_bool_false. lra.
Qed.
End Times.
