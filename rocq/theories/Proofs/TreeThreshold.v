(** The threshold chosen between two feature values. *)
From Coq Require Import List ZArith Bool Lia Reals Lra SpecFloat.
From Flocq Require Import Core BinarySingleNaN.
From Verif Require Import Model.Base Model.Float Model.TreeM Proofs.FloatFacts Proofs.FloatConv.
Import ListNotations.
Open Scope R_scope.

Lemma abs_between a b r M : Rabs a < M -> Rabs b < M -> a <= r <= b -> Rabs r < M.
Proof. intros A B C. apply Rabs_lt_inv in A, B. apply Rabs_lt. lra. Qed.

(** Any representable pair of bounds around the real mean bounds the threshold. *)
Lemma midpoint_between (l r : f32) lo hi :
  is_finite l = true -> is_finite r = true -> is_finite (add32 l r) = true ->
  fmt32 lo -> fmt32 hi -> Rabs lo < bpow radix2 128 -> Rabs hi < bpow radix2 128 ->
  2 * lo <= B2R l + B2R r <= 2 * hi ->
  is_finite (midpoint l r) = true /\ lo <= B2R (midpoint l r) <= hi.
Proof.
  intros Fl Fr Fs Flo Fhi Alo Ahi [H1 H2].
  assert (S : B2R (add32 l r) = rnd32 (B2R l + B2R r)).
  { generalize (Bplus_correct 24 128 _ _ mode_NE l r Fl Fr).
    destruct (Rlt_bool _ _) eqn:E; [intros (A & _); exact A|].
    intros [A _]. exfalso. unfold add32 in Fs. destruct (Bplus mode_NE l r); try discriminate. }
  assert (B : 2 * lo <= B2R (add32 l r) <= 2 * hi).
  { rewrite S. apply rnd32_between; auto using fmt32_double. }
  destruct (f64_of_f32_spec _ Fs) as [F1 V1].
  assert (X : fmt64 (B2R (f64_of_f32 (add32 l r)) / B2R two64)).
  { rewrite V1, two64_val. apply fmt64_half, fmt32_B2R. }
  destruct (div64_spec (f64_of_f32 (add32 l r)) two64) as [F2 V2]; auto.
  { rewrite two64_val. lra. }
  { rewrite round_generic; auto; [|typeclasses eauto]. rewrite V1, two64_val.
    apply (abs_between lo hi); [apply bpow_lt_64; auto|apply bpow_lt_64; auto|lra]. }
  rewrite round_generic in V2; auto; [|typeclasses eauto]. rewrite V1, two64_val in V2.
  assert (R : lo <= rnd32 (B2R (div64 (f64_of_f32 (add32 l r)) two64)) <= hi).
  { apply rnd32_between; auto. rewrite V2. lra. }
  destruct (f32_of_f64_spec (div64 (f64_of_f32 (add32 l r)) two64) F2) as [F3 V3].
  { apply (abs_between lo hi); auto. }
  unfold midpoint. rewrite V3. auto.
Qed.

(** C24, positive part. *)
Lemma midpoint_routes (l r : f32) :
  is_finite l = true -> is_finite r = true -> is_finite (add32 l r) = true -> lt32 l r = true ->
  is_finite (midpoint l r) = true /\ le32 l (midpoint l r) = true /\ le32 (midpoint l r) r = true /\
  lt32 r (midpoint l r) = false.
Proof.
  intros Fl Fr Fs L. unfold lt32 in L.
  destruct (Bltb_not_nan _ _ _ _ L) as [Nl Nr].
  rewrite Bltb_xval, !xval_finite in L by auto. rbool.
  destruct (midpoint_between l r (B2R l) (B2R r)) as [F [A B]];
    auto using fmt32_B2R, abs_B2R_lt_emax; [lra|].
  assert (Nm : is_nan (midpoint l r) = false) by (destruct (midpoint l r); auto; discriminate).
  repeat split; auto; unfold le32, lt32;
    rewrite ?Bleb_xval, ?Bltb_xval, !xval_finite by auto; rbool; auto.
Qed.

Lemma midpoint_separates (l r m : f32) :
  is_finite l = true -> is_finite r = true -> is_finite (add32 l r) = true -> is_finite m = true ->
  lt32 l m = true -> 2 * B2R m <= B2R l + B2R r -> B2R l <= B2R r ->
  lt32 l (midpoint l r) = true.
Proof.
  intros Fl Fr Fs Fm L M LR. unfold lt32 in *.
  destruct (Bltb_not_nan _ _ _ _ L) as [Nl Nm].
  rewrite Bltb_xval, !xval_finite in L by auto. rbool.
  destruct (midpoint_between l r (B2R m) (B2R r)) as [F [A B]];
    auto using fmt32_B2R, abs_B2R_lt_emax; [lra|].
  assert (N : is_nan (midpoint l r) = false) by (destruct (midpoint l r); auto; discriminate).
  rewrite Bltb_xval, !xval_finite by auto. rbool. lra.
Qed.

(** C24, witnesses. *)
Lemma midpoint_equals_left : exists l r : f32,
  is_finite l = true /\ is_finite r = true /\ is_finite (add32 l r) = true /\
  lt32 l r = true /\ lt32 l (midpoint l r) = false.
Proof.
  exists (binary_normalize 24 128 _ _ mode_NE 1 0 false), (binary_normalize 24 128 _ _ mode_NE 8388609 (-23) false).
  repeat split; vm_compute; reflexivity.
Qed.

Lemma midpoint_overflows : exists l r : f32,
  is_finite l = true /\ is_finite r = true /\
  lt32 l r = true /\ lt32 r (midpoint l r) = true.
Proof.
  exists (binary_normalize 24 128 _ _ mode_NE 1 127 false), (binary_normalize 24 128 _ _ mode_NE 3 126 false).
  repeat split; vm_compute; reflexivity.
Qed.
