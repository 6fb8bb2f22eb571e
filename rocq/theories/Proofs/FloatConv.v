(** Values of the binary32/binary64 operations and conversions used by the tree code. *)
From Coq Require Import List ZArith Bool Lia Reals Lra SpecFloat.
From Flocq Require Import Core BinarySingleNaN.
From Verif Require Import Model.Float Proofs.FloatFacts.
Import ListNotations.
Open Scope R_scope.

Notation rnd32 := (round radix2 (fexp 24 128) (round_mode mode_NE)).
Notation rnd64 := (round radix2 (fexp 53 1024) (round_mode mode_NE)).
Notation fmt32 := (generic_format radix2 (fexp 24 128)).
Notation fmt64 := (generic_format radix2 (fexp 53 1024)).

#[global] Instance v32 : Valid_exp (fexp 24 128) := FLT_exp_valid (-149) 24.
#[global] Instance v64 : Valid_exp (fexp 53 1024) := FLT_exp_valid (-1074) 53.
#[global] Instance m32 : Monotone_exp (fexp 24 128) := FLT_exp_monotone (-149) 24.
#[global] Instance m64 : Monotone_exp (fexp 53 1024) := FLT_exp_monotone (-1074) 53.
#[global] Instance vNE : Valid_rnd (round_mode mode_NE) := valid_rnd_N _.

Lemma fmt32_B2R (x : f32) : fmt32 (B2R x).
Proof. apply generic_format_B2R. Qed.
Lemma fmt64_B2R (x : f64) : fmt64 (B2R x).
Proof. apply generic_format_B2R. Qed.

Lemma fmt32_64 r : fmt32 r -> fmt64 r.
Proof.
  intros H. destruct (FLT_format_generic radix2 (-149) 24 r H) as [f E M X].
  apply (generic_format_FLT radix2 (-1074) 53). exists f; auto; [|lia].
  eapply Z.lt_le_trans; [exact M|]. apply Zpower_le. lia.
Qed.

(** A result strictly inside the range does not overflow. *)
Lemma add32_spec (x y : f32) : is_finite x = true -> is_finite y = true ->
  Rabs (rnd32 (B2R x + B2R y)) < bpow radix2 128 ->
  is_finite (add32 x y) = true /\ B2R (add32 x y) = rnd32 (B2R x + B2R y).
Proof.
  intros Fx Fy H. generalize (Bplus_correct 24 128 _ _ mode_NE x y Fx Fy).
  rewrite Rlt_bool_true by exact H. intros (A & B & _). auto.
Qed.
Lemma sub32_spec (x y : f32) : is_finite x = true -> is_finite y = true ->
  Rabs (rnd32 (B2R x - B2R y)) < bpow radix2 128 ->
  is_finite (sub32 x y) = true /\ B2R (sub32 x y) = rnd32 (B2R x - B2R y).
Proof.
  intros Fx Fy H. generalize (Bminus_correct 24 128 _ _ mode_NE x y Fx Fy).
  rewrite Rlt_bool_true by exact H. intros (A & B & _). auto.
Qed.
Lemma mul32_spec (x y : f32) : is_finite x = true -> is_finite y = true ->
  Rabs (rnd32 (B2R x * B2R y)) < bpow radix2 128 ->
  is_finite (mul32 x y) = true /\ B2R (mul32 x y) = rnd32 (B2R x * B2R y).
Proof.
  intros Fx Fy H. generalize (Bmult_correct 24 128 _ _ mode_NE x y).
  rewrite Rlt_bool_true by exact H. rewrite Fx, Fy. intros (A & B & _). auto.
Qed.
Lemma div32_spec (x y : f32) : is_finite x = true -> B2R y <> 0 ->
  Rabs (rnd32 (B2R x / B2R y)) < bpow radix2 128 ->
  is_finite (div32 x y) = true /\ B2R (div32 x y) = rnd32 (B2R x / B2R y).
Proof.
  intros Fx Fy H. generalize (Bdiv_correct 24 128 _ _ mode_NE x y Fy).
  rewrite Rlt_bool_true by exact H. rewrite Fx. intros (A & B & _). auto.
Qed.
Lemma div64_spec (x y : f64) : is_finite x = true -> B2R y <> 0 ->
  Rabs (rnd64 (B2R x / B2R y)) < bpow radix2 1024 ->
  is_finite (div64 x y) = true /\ B2R (div64 x y) = rnd64 (B2R x / B2R y).
Proof.
  intros Fx Fy H. generalize (Bdiv_correct 53 1024 _ _ mode_NE x y Fy).
  rewrite Rlt_bool_true by exact H. rewrite Fx. intros (A & B & _). auto.
Qed.

Lemma bpow_lt_64 r : Rabs r < bpow radix2 128 -> Rabs r < bpow radix2 1024.
Proof. intros. eapply Rlt_trans; [eassumption|]. apply bpow_lt. lia. Qed.

Lemma f64_of_f32_spec (x : f32) : is_finite x = true ->
  is_finite (f64_of_f32 x) = true /\ B2R (f64_of_f32 x) = B2R x.
Proof.
  intros F. destruct x as [s|s| |s m e H]; try discriminate; [split; reflexivity|].
  unfold f64_of_f32.
  set (x := B754_finite s m e H) in *.
  assert (V : F2R {| Fnum := cond_Zopp s (Zpos m); Fexp := e |} = B2R x) by reflexivity.
  generalize (binary_normalize_correct 53 1024 _ _ mode_NE (cond_Zopp s (Zpos m)) e s).
  cbv zeta. rewrite V. rewrite round_generic; [|typeclasses eauto|apply fmt32_64, fmt32_B2R].
  rewrite Rlt_bool_true.
  - intros (A & B & _). auto.
  - apply bpow_lt_64, abs_B2R_lt_emax.
Qed.

Lemma f32_of_f64_spec (x : f64) : is_finite x = true -> Rabs (rnd32 (B2R x)) < bpow radix2 128 ->
  is_finite (f32_of_f64 x) = true /\ B2R (f32_of_f64 x) = rnd32 (B2R x).
Proof.
  intros F L. destruct x as [s|s| |s m e H]; try discriminate.
  - split; [reflexivity|]. cbn [B2R f32_of_f64]. now rewrite round_0 by typeclasses eauto.
  - unfold f32_of_f64. set (x := B754_finite s m e H) in *.
    assert (V : F2R {| Fnum := cond_Zopp s (Zpos m); Fexp := e |} = B2R x) by reflexivity.
    generalize (binary_normalize_correct 24 128 _ _ mode_NE (cond_Zopp s (Zpos m)) e s).
    cbv zeta. rewrite V. rewrite Rlt_bool_true by auto. intros (A & B & _). auto.
Qed.

Lemma fmt_of_Z z : (Z.abs z <= 2 ^ 24)%Z -> fmt32 (IZR z).
Proof.
  intros H. destruct (Z.eq_dec (Z.abs z) (2 ^ 24)) as [E|N].
  - assert (IZR z = bpow radix2 24 \/ IZR z = - bpow radix2 24) as [->| ->].
    { change (bpow radix2 24) with (IZR (2 ^ 24)). rewrite <- opp_IZR.
      destruct (Z.abs_spec z) as [[_ A]|[_ A]]; [left|right]; f_equal; lia. }
    + apply (generic_format_FLT_bpow radix2 (-149) 24); lia.
    + apply generic_format_opp. apply (generic_format_FLT_bpow radix2 (-149) 24); lia.
  - apply (generic_format_FLT radix2 (-149) 24). exists (Float radix2 z 0); cbn [Fnum Fexp].
    + unfold F2R. cbn. lra.
    + change (radix2 : Z) with 2%Z. lia.
    + lia.
Qed.

Lemma IZR_lt_128 z : (Z.abs z <= 2 ^ 24)%Z -> Rabs (IZR z) < bpow radix2 128.
Proof.
  intros H. rewrite <- abs_IZR. change (bpow radix2 128) with (IZR (2 ^ 128)).
  apply IZR_lt. eapply Z.le_lt_trans; [exact H|]. reflexivity.
Qed.

Lemma f32_of_Z_spec z : (Z.abs z <= 2 ^ 24)%Z ->
  is_finite (f32_of_Z z) = true /\ B2R (f32_of_Z z) = IZR z.
Proof.
  intros H. unfold f32_of_Z.
  assert (V : F2R (Float radix2 z 0) = IZR z) by (unfold F2R; cbn; lra).
  generalize (binary_normalize_correct 24 128 _ _ mode_NE z 0 false).
  cbv zeta. rewrite V. change (fun z0 : Z => negb (Z.even z0)) with (fun z0 : Z => negb (Z.even z0)).
  rewrite round_generic; [|typeclasses eauto|now apply fmt_of_Z].
  rewrite Rlt_bool_true by (now apply IZR_lt_128). intros (A & B & _). auto.
Qed.

Lemma two64_val : B2R two64 = 2.
Proof.
  rewrite <- SF2R_B2SF.
  replace (B2SF two64) with (S754_finite false 4503599627370496 (-51)) by (vm_compute; reflexivity).
  unfold SF2R, F2R. cbn. lra.
Qed.

(** Rounding stays between representable bounds. *)
Lemma rnd32_between lo hi r : fmt32 lo -> fmt32 hi -> lo <= r <= hi -> lo <= rnd32 r <= hi.
Proof.
  intros A B [C D]. split; [apply round_ge_generic|apply round_le_generic]; auto; typeclasses eauto.
Qed.
Lemma rnd64_between lo hi r : fmt64 lo -> fmt64 hi -> lo <= r <= hi -> lo <= rnd64 r <= hi.
Proof.
  intros A B [C D]. split; [apply round_ge_generic|apply round_le_generic]; auto; typeclasses eauto.
Qed.

Lemma fmt32_double r : fmt32 r -> fmt32 (2 * r).
Proof.
  intros H. destruct (FLT_format_generic radix2 (-149) 24 r H) as [f E M X].
  apply (generic_format_FLT radix2 (-149) 24). exists (Float radix2 (Fnum f) (Fexp f + 1)); cbn [Fnum Fexp]; auto; [|lia].
  rewrite E. unfold F2R. cbn [Fnum Fexp]. rewrite bpow_plus. change (bpow radix2 1) with 2. ring.
Qed.
Lemma fmt64_half r : fmt32 r -> fmt64 (r / 2).
Proof.
  intros H. destruct (FLT_format_generic radix2 (-149) 24 r H) as [f E M X].
  apply (generic_format_FLT radix2 (-1074) 53). exists (Float radix2 (Fnum f) (Fexp f - 1)); cbn [Fnum Fexp]; [| |lia].
  - rewrite E. unfold F2R, Rdiv. cbn [Fnum Fexp]. unfold Zminus. rewrite bpow_plus. change (bpow radix2 (-(1))) with (/2). ring.
  - eapply Z.lt_le_trans; [exact M|]. apply Zpower_le. lia.
Qed.
