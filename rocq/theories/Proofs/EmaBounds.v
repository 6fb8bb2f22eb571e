(** The moving average stays between bounds whose halves are exact. *)
From Coq Require Import List ZArith Bool Lia Reals Lra SpecFloat.
From Flocq Require Import Core BinarySingleNaN Mult_error.
From Verif Require Import Model.Base Model.Float Spec.DatasetSpec Proofs.FloatFacts.
Import ListNotations.
Open Scope R_scope.

Notation rnd64 := (round radix2 (fexp 53 1024) (round_mode mode_NE)).

Lemma half_value : B2R half64 = / 2 /\ is_finite half64 = true.
Proof.
  split; [|reflexivity]. rewrite <- SF2R_B2SF.
  replace (B2SF half64) with (S754_finite false 4503599627370496 (-53)) by (vm_compute; reflexivity).
  unfold SF2R, F2R. cbn. lra.
Qed.

Definition halvable (x : f64) : Prop :=
  is_finite x = true /\ (B2R x = 0 \/ bpow radix2 (-1021) <= Rabs (B2R x)).

Lemma halvable_format x : halvable x -> generic_format radix2 (fexp 53 1024) (/ 2 * B2R x).
Proof.
  intros [F [Z|L]].
  - rewrite Z, Rmult_0_r. apply generic_format_0.
  - rewrite Rmult_comm. change (/ 2) with (bpow radix2 (-1)).
    apply (mult_bpow_exact_FLT radix2 (-1074) 53 (B2R x) (-1)).
    + apply (generic_format_B2R 53 1024 x).
    + assert (X : B2R x <> 0). { intros E. rewrite E, Rabs_R0 in L. generalize (bpow_gt_0 radix2 (-1021)). lra. }
      assert (M : (-1020 <= mag radix2 (B2R x))%Z).
      { apply mag_ge_bpow. exact L. }
      lia.
Qed.

#[local] Instance v64 : Valid_exp (fexp 53 1024) := FLT_exp_valid (-1074) 53.

Lemma round_between x lo hi :
  generic_format radix2 (fexp 53 1024) lo -> generic_format radix2 (fexp 53 1024) hi ->
  lo <= x <= hi -> lo <= rnd64 x <= hi.
Proof.
  intros Fl Fh [A B].
  split; [apply round_ge_generic|apply round_le_generic]; auto; typeclasses eauto.
Qed.

Lemma no_overflow (x y : f64) : is_finite x = true -> is_finite y = true ->
  forall r, B2R x <= r <= B2R y -> Rlt_bool (Rabs r) (bpow radix2 1024) = true.
Proof.
  intros Fx Fy r [A B]. apply Rlt_bool_true.
  destruct (finite_bound 53 1024 x Fx) as [C D]. destruct (finite_bound 53 1024 y Fy) as [E F].
  apply Rabs_lt. lra.
Qed.

Lemma half_bound lo hi x : halvable lo -> halvable hi -> is_finite x = true ->
  B2R lo <= B2R x <= B2R hi ->
  is_finite (mul64 half64 x) = true /\ / 2 * B2R lo <= B2R (mul64 half64 x) <= / 2 * B2R hi.
Proof.
  intros Hl Hh Fx [A B]. destruct half_value as [HV HF].
  assert (R := round_between (/ 2 * B2R x) (/ 2 * B2R lo) (/ 2 * B2R hi)
                (halvable_format lo Hl) (halvable_format hi Hh) ltac:(lra)).
  assert (BX := finite_bound 53 1024 x Fx).
  generalize (Bmult_correct 53 1024 _ _ mode_NE half64 x). rewrite HV.
  rewrite Rlt_bool_true.
  - intros (E & F & _). unfold mul64. rewrite E, F, HF, Fx. auto.
  - assert (BL := finite_bound 53 1024 lo (proj1 Hl)). assert (BH := finite_bound 53 1024 hi (proj1 Hh)).
    apply Rabs_lt. lra.
Qed.

Lemma mean2_bound lo hi a b : halvable lo -> halvable hi -> is_finite a = true -> is_finite b = true ->
  B2R lo <= B2R a <= B2R hi -> B2R lo <= B2R b <= B2R hi ->
  is_finite (mean2 a b) = true /\ B2R lo <= B2R (mean2 a b) <= B2R hi.
Proof.
  intros Hl Hh Fa Fb A B.
  destruct (half_bound lo hi a Hl Hh Fa A) as [FA BA].
  destruct (half_bound lo hi b Hl Hh Fb B) as [FB BB].
  change (mean2 a b) with (add64 (mul64 half64 a) (mul64 half64 b)).
  assert (R := round_between (B2R (mul64 half64 a) + B2R (mul64 half64 b)) (B2R lo) (B2R hi)
                (generic_format_B2R 53 1024 lo) (generic_format_B2R 53 1024 hi) ltac:(lra)).
  generalize (Bplus_correct 53 1024 _ _ mode_NE _ _ FA FB).
  assert (BL := finite_bound 53 1024 lo (proj1 Hl)). assert (BH := finite_bound 53 1024 hi (proj1 Hh)).
  rewrite Rlt_bool_true by (apply Rabs_lt; lra).
  intros (E & F & _). unfold add64. rewrite E. auto.
Qed.

Lemma moving_average_bound lo hi l v : halvable lo -> halvable hi ->
  Forall (fun x => is_finite x = true /\ B2R lo <= B2R x <= B2R hi) l ->
  moving_average l = Some v -> is_finite v = true /\ B2R lo <= B2R v <= B2R hi.
Proof.
  intros Hl Hh F. destruct l as [|m l]; [discriminate|]. cbn. intros E. inversion E; subst; clear E.
  inversion F as [|? ? [Fm Bm] F']; subst. clear F. revert m Fm Bm.
  induction l as [|x l IH]; intros m Fm Bm; cbn; auto.
  inversion F' as [|? ? [Fx Bx] F2]; subst.
  destruct (mean2_bound lo hi m x Hl Hh Fm Fx Bm Bx). apply IH; auto.
Qed.

(** Averaging a value with itself is the identity when halving is exact. *)
Lemma mean2_same a : halvable a -> B2R a <> 0 -> mean2 a a = a.
Proof.
  intros H NZ. destruct H as [F H]. assert (Ha : halvable a) by (split; auto).
  destruct (mean2_bound a a a a Ha Ha F F ltac:(lra) ltac:(lra)) as [F' B].
  assert (E : B2R (mean2 a a) = B2R a) by lra.
  apply B2R_inj; auto.
  - destruct (mean2 a a); try discriminate; auto; cbn in E; congruence.
  - destruct a; try discriminate; auto; cbn in NZ; congruence.
Qed.

Lemma mean2_zero s : mean2 (B754_zero s) (B754_zero s) = B754_zero s.
Proof. destruct s; vm_compute; reflexivity. Qed.

Lemma mean2_same' a : halvable a -> mean2 a a = a.
Proof.
  intros H. destruct (Req_dec (B2R a) 0) as [Z|NZ]; [|now apply mean2_same].
  destruct H as [F _]. destruct a as [s|s| |s m e b]; try discriminate.
  - apply mean2_zero.
  - exfalso. cbn in Z. apply eq_0_F2R in Z. destruct s; discriminate.
Qed.

Lemma exists_min (l : list f64) : l <> [] -> exists x, In x l /\ forall y, In y l -> B2R x <= B2R y.
Proof.
  induction l as [|a [|b l] IH]; [congruence| |]; intros _.
  - exists a. split; [now left|]. intros y [->|[]]. lra.
  - destruct IH as (x & I & H); [discriminate|]. destruct (Rle_dec (B2R a) (B2R x)).
    + exists a. split; [now left|]. intros y [->|J]; [lra|]. specialize (H y J). lra.
    + exists x. split; [now right|]. intros y [<-|J]; [lra|]. auto.
Qed.
Lemma exists_max (l : list f64) : l <> [] -> exists x, In x l /\ forall y, In y l -> B2R y <= B2R x.
Proof.
  induction l as [|a [|b l] IH]; [congruence| |]; intros _.
  - exists a. split; [now left|]. intros y [->|[]]. lra.
  - destruct IH as (x & I & H); [discriminate|]. destruct (Rle_dec (B2R x) (B2R a)).
    + exists a. split; [now left|]. intros y [->|J]; [lra|]. specialize (H y J). lra.
    + exists x. split; [now right|]. intros y [<-|J]; [lra|]. auto.
Qed.

Lemma moving_average_range l v : Forall halvable l -> moving_average l = Some v ->
  is_finite v = true /\
  (exists lo, In lo l /\ B2R lo <= B2R v) /\ (exists hi, In hi l /\ B2R v <= B2R hi).
Proof.
  intros F E. assert (NE : l <> []) by (destruct l; discriminate || congruence).
  destruct (exists_min l NE) as (lo & Il & Hl). destruct (exists_max l NE) as (hi & Ih & Hh).
  rewrite Forall_forall in F.
  destruct (moving_average_bound lo hi l v (F _ Il) (F _ Ih)) as [A B]; auto.
  - rewrite Forall_forall. intros x I. split; [apply (F x I)|]. split; auto.
  - split; auto. split; [exists lo|exists hi]; intuition.
Qed.

(** A check of [halvable] for examples. *)
Definition smallest_halvable : f64 := binary_normalize 53 1024 eq_refl eq_refl mode_NE 1 (-1021) false.
Definition halvable_b (x : f64) : bool := is_finite x && Bleb smallest_halvable (Babs x).
Lemma halvable_b_true x : halvable_b x = true -> halvable x.
Proof.
  unfold halvable_b. intros H. apply andb_prop in H. destruct H as [F L]. split; [exact F|]. right.
  rewrite Bleb_correct in L; [|vm_compute; reflexivity|rewrite is_finite_Babs; exact F]. rewrite B2R_Babs in L.
  assert (E : B2R smallest_halvable = bpow radix2 (-1021)).
  { rewrite <- SF2R_B2SF. replace (B2SF smallest_halvable) with (SpecFloat.S754_finite false 4503599627370496 (-1073)) by (vm_compute; reflexivity).
    unfold SF2R, F2R. cbn [Fnum Fexp cond_Zopp]. change (IZR 4503599627370496) with (IZR (Z.pow 2 52)). change (Z.pow 2 52) with (Zpower radix2 52). rewrite IZR_Zpower by discriminate. rewrite <- bpow_plus. reflexivity. }
  rewrite E in L. case (Rle_bool_spec (bpow radix2 (-1021)) (Rabs (B2R x))) in L; [assumption|discriminate].
Qed.
