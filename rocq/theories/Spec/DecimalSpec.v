(** What a decimal rendering with six significant digits preserves of a floating-point number. *)
From Coq Require Import ZArith Reals SpecFloat.
From Flocq Require Import Core BinarySingleNaN.
Open Scope Z_scope.

Definition radix10 : radix := Build_radix 10 eq_refl.

(** Rounding to six significant decimal digits, nearest, ties to even. *)
Definition round6 (x : R) : R := round radix10 (FLX_exp 6) ZnearestE x.

(** [y] is the number of the same format nearest to the six-digit rendering of [x]. *)
Definition six_digit_copy {prec emax} (x y : binary_float prec emax) : Prop :=
  match x with
  | B754_finite s _ _ _ =>
      is_finite y = true /\ Bsign y = s /\
      B2R y = round radix2 (fexp prec emax) ZnearestE (round6 (B2R x))
  | _ => y = x
  end.

(** Not in the bottom of the range: zero, not finite, or at least twice the smallest normal number
    in magnitude. *)
Definition normal_range {prec emax} (x : binary_float prec emax) : Prop :=
  match x with
  | B754_finite _ _ _ _ => (bpow radix2 (3 - emax) <= Rabs (B2R x))%R
  | _ => True
  end.
