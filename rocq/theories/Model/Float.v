(** `float` and `double` of the C++ sources as IEEE-754 binary32 and binary64
    (Flocq), rounding to nearest even, with a single NaN. *)
From Coq Require Import List ZArith Bool SpecFloat.
From Flocq Require Import Core BinarySingleNaN.
Import ListNotations.

(** Precision facts of binary32 and binary64 needed by Flocq's operations. *)
#[global] Instance prec_gt_0_32 : Prec_gt_0 24 := eq_refl.
#[global] Instance prec_lt_emax_32 : Prec_lt_emax 24 128 := eq_refl.
#[global] Instance prec_gt_0_64 : Prec_gt_0 53 := eq_refl.
#[global] Instance prec_lt_emax_64 : Prec_lt_emax 53 1024 := eq_refl.

(** C++ `float`: features, thresholds and gini scores (include/apollo/Dataset.h line 23,
    src/models/impl/DecisionTreeImpl.h lines 47-51). *)
Definition f32 := binary_float 24 128.
(** C++ `double`: metrics (include/apollo/Dataset.h line 23, include/apollo/Timer.h line 21). *)
Definition f64 := binary_float 53 1024.

(** `a + b`, `a - b`, `a * b`, `a / b` on float. src/models/impl/DecisionTreeImpl.cpp lines 261-276 and 350-358. *)
Definition add32 : f32 -> f32 -> f32 := Bplus mode_NE.
(** `a - b` on float, src/models/impl/DecisionTreeImpl.cpp line 276. *)
Definition sub32 : f32 -> f32 -> f32 := Bminus mode_NE.
(** `a * b` on float, src/models/impl/DecisionTreeImpl.cpp lines 273 and 350-352. *)
Definition mul32 : f32 -> f32 -> f32 := Bmult mode_NE.
(** `a / b` on float, src/models/impl/DecisionTreeImpl.cpp lines 272 and 350-352. *)
Definition div32 : f32 -> f32 -> f32 := Bdiv mode_NE.
(** `a + b`, `a - b`, `a * b`, `a / b`, std::sqrt on double.
    src/Dataset.cpp line 38, src/models/PolicyNet.cpp lines 142-180. *)
Definition add64 : f64 -> f64 -> f64 := Bplus mode_NE.
(** `a - b` on double, src/models/PolicyNet.cpp lines 159-163. *)
Definition sub64 : f64 -> f64 -> f64 := Bminus mode_NE.
(** `a * b` on double, src/Dataset.cpp line 38. *)
Definition mul64 : f64 -> f64 -> f64 := Bmult mode_NE.
(** `a / b` on double, src/models/PolicyNet.cpp lines 162-166. *)
Definition div64 : f64 -> f64 -> f64 := Bdiv mode_NE.
(** std::sqrt on double, src/models/PolicyNet.cpp lines 30 and 166. *)
Definition sqrt64 : f64 -> f64 := Bsqrt mode_NE.

(** Conversion of an integer (int, size_t) to float / double. src/models/impl/DecisionTreeImpl.cpp line 272. *)
Definition f32_of_Z (z : Z) : f32 := binary_normalize 24 128 _ _ mode_NE z 0 false.
(** Conversion of an integer to double, src/models/PolicyNet.cpp line 30. *)
Definition f64_of_Z (z : Z) : f64 := binary_normalize 53 1024 _ _ mode_NE z 0 false.

(** Conversion float -> double (exact) and double -> float (rounds). src/models/impl/DecisionTreeImpl.cpp line 358. *)
Definition f64_of_f32 (x : f32) : f64 :=
  match x with
  | B754_zero s => B754_zero s
  | B754_infinity s => B754_infinity s
  | B754_nan => B754_nan
  | B754_finite s m e _ => binary_normalize 53 1024 _ _ mode_NE (cond_Zopp s (Zpos m)) e s
  end.
(** Conversion double -> float (rounds), src/models/impl/DecisionTreeImpl.cpp line 358. *)
Definition f32_of_f64 (x : f64) : f32 :=
  match x with
  | B754_zero s => B754_zero s
  | B754_infinity s => B754_infinity s
  | B754_nan => B754_nan
  | B754_finite s m e _ => binary_normalize 24 128 _ _ mode_NE (cond_Zopp s (Zpos m)) e s
  end.

(** The literals 0.5, 1.0, 2.0 of type double; 0.0f and 1.0f of type float. src/Dataset.cpp line 38. *)
Definition half64 : f64 := binary_normalize 53 1024 _ _ mode_NE 1 (-1) false.
(** The literal 1 in double arithmetic, src/models/PolicyNet.cpp line 162. *)
Definition one64 : f64 := f64_of_Z 1.
(** The literal 2.0, src/models/impl/DecisionTreeImpl.cpp line 358. *)
Definition two64 : f64 := f64_of_Z 2.
(** The literal 0 assigned to a double, src/models/PolicyNet.cpp line 89. *)
Definition zero64 : f64 := B754_zero false.
(** The literal 0.0f, src/models/impl/DecisionTreeImpl.cpp line 261. *)
Definition zero32 : f32 := B754_zero false.
(** The literal 1.0f, src/models/impl/DecisionTreeImpl.cpp line 276. *)
Definition one32 : f32 := f32_of_Z 1.

(** `a < b`, `a <= b`, `a == b` on float and double: false when an operand is NaN.
    src/models/impl/DecisionTreeImpl.cpp line 306. *)
Definition lt32 : f32 -> f32 -> bool := Bltb.
(** `a <= b` on float, src/models/impl/DecisionTreeImpl.cpp lines 354 and 397. *)
Definition le32 : f32 -> f32 -> bool := Bleb.
(** `a == b` on float, src/models/impl/DecisionTreeImpl.cpp line 341. *)
Definition eq32 : f32 -> f32 -> bool := Beqb.
(** `a < b` on double, src/Dataset.cpp line 72. *)
Definition lt64 : f64 -> f64 -> bool := Bltb.
(** `a <= b` on double; the code has no such comparison, specifications use it. *)
Definition le64 : f64 -> f64 -> bool := Bleb.
(** `a == b` on double, src/connectors/kokkos/kokkos-connector.cpp line 90. *)
Definition eq64 : f64 -> f64 -> bool := Beqb.
