(** Decimal conversions used by the sources: `os << int/size_t/float/double` with the default
    stream flags (src/Dataset.cpp lines 94-112, src/helpers/OutputFormatter.h, Region.cpp traces) and
    std::stoi/stoul/stof/stod (src/helpers/Parser.cpp lines 89-129, src/ModelFactory.cpp,
    src/models/Optimal.cpp). These are library functions; they are modelled from the C and C++
    standards:
    - output of floating-point numbers is printf "%.6g" (exact value, round half to even);
    - input of floating-point numbers is correctly rounded (glibc).
    Not modelled: locales other than "C"; the "nan(chars)" form (read as "nan").
    The sign of a NaN is not represented, so NaN prints as "nan".
    Boundary simplification: a decimal input that rounds up to exactly the smallest normal number is
    never reported as out of range. *)
From Coq Require Import List ZArith Bool Ascii String SpecFloat.
From Flocq Require Import Core BinarySingleNaN.
From Verif Require Import Model.Base Model.Float.
Import ListNotations.
Open Scope Z_scope.

(** Character of a decimal digit 0..9.
    Part of the conversion of numbers by std::ostream, as in src/Dataset.cpp lines 102-107. *)
Definition digit_char (d : Z) : ascii := ascii_of_N (Z.to_N (48 + d)).

(** std::isdigit in the "C" locale. *)
Definition is_digit (c : ascii) : bool := (48 <=? N_of_ascii c)%N && (N_of_ascii c <=? 57)%N.

(** Value of a decimal digit character.
    Part of std::stoi, std::stod and std::stof, src/helpers/Parser.cpp lines 93, 101 and 109. *)
Definition digit_val (c : ascii) : Z := Z.of_N (N_of_ascii c) - 48.

(** std::isspace in the "C" locale (src/helpers/Parser.cpp lines 24-33): space, \t, \n, \v, \f, \r. *)
Definition isspace (c : ascii) : bool :=
  let n := N_of_ascii c in ((n =? 32) || ((9 <=? n) && (n <=? 13)))%N.

(** The last [k] decimal digits of [n], most significant first.
    Part of the conversion of numbers by std::ostream, as in src/Dataset.cpp lines 102-107. *)
Fixpoint digits_w (k : nat) (n : Z) : bytes :=
  match k with
  | O => []
  | S k' => digits_w k' (n / 10) ++ [digit_char (n mod 10)]
  end.

(** Number of decimal digits of [n >= 0] (at least 1); [fuel] bounds the recursion.
    Part of the conversion of numbers by std::ostream, as in src/Dataset.cpp lines 102-107. *)
Fixpoint ndig_fuel (fuel : nat) (n : Z) : nat :=
  match fuel with
  | O => 1
  | S fuel' => if n <? 10 then 1%nat else S (ndig_fuel fuel' (n / 10))
  end.
(** Part of the conversion of numbers by std::ostream, as in src/Dataset.cpp lines 102-107. *)
Definition ndig (n : Z) : nat := ndig_fuel (Z.to_nat (Z.log2 n)) n.

(** Decimal text of a non-negative integer and of an int (`os << int`).
    Part of the conversion of numbers by std::ostream, as in src/Dataset.cpp lines 102-107. *)
Definition print_nonneg (n : Z) : bytes := digits_w (ndig n) n.
(** An int written to a stream, src/Dataset.cpp lines 102 and 106. *)
Definition print_Z (z : Z) : bytes :=
  if z <? 0 then "-"%char :: print_nonneg (- z) else print_nonneg z.

(** Quotient n/d rounded to nearest, ties to even (n >= 0, d > 0).
    Part of the conversion of numbers by std::ostream, as in src/Dataset.cpp lines 102-107. *)
Definition round_half_even (n d : Z) : Z :=
  let q := n / d in
  let r := n mod d in
  if 2 * r <? d then q
  else if d <? 2 * r then q + 1
  else if Z.even q then q else q + 1.

(** Decimal exponent X of the positive rational n/d: 10^X <= n/d < 10^(X+1).
    Part of the conversion of numbers by std::ostream, as in src/Dataset.cpp lines 102-107. *)
Definition dec_exp (n d : Z) : Z :=
  if d <=? n then Z.of_nat (ndig (n / d)) - 1
  else - Z.of_nat (ndig ((d - 1) / n)).

(** Six significant digits of the positive rational n/d: (D, X) with the "%.5e" rendering
    being D/10^5 * 10^X, 10^5 <= D < 10^6.
    Part of the conversion of numbers by std::ostream, as in src/Dataset.cpp lines 102-107. *)
Definition dec6 (n d : Z) : Z * Z :=
  let X := dec_exp n d in
  let s := 5 - X in
  let D := if 0 <=? s then round_half_even (n * 10 ^ s) d
           else round_half_even n (d * 10 ^ (- s)) in
  if D =? 1000000 then (100000, X + 1) else (D, X).

(** Removal of trailing zeros, as "%g" does.
    Part of the conversion of numbers by std::ostream, as in src/Dataset.cpp lines 102-107. *)
Fixpoint strip_zeros_rev (l : bytes) : bytes :=
  match l with
  | c :: r => if Ascii.eqb c "0" then strip_zeros_rev r else l
  | [] => []
  end.
(** Part of the conversion of numbers by std::ostream, as in src/Dataset.cpp lines 102-107. *)
Definition strip_zeros (l : bytes) : bytes := rev (strip_zeros_rev (rev l)).

(** A fractional part with its point, empty when there are no digits left.
    Part of the conversion of numbers by std::ostream, as in src/Dataset.cpp lines 102-107. *)
Definition frac (l : bytes) : bytes :=
  match strip_zeros l with
  | [] => []
  | f => "."%char :: f
  end.

(** Exponent suffix e+XX / e-XX with at least two digits.
    Part of the conversion of numbers by std::ostream, as in src/Dataset.cpp lines 102-107. *)
Definition exp_suffix (X : Z) : bytes :=
  "e"%char :: (if X <? 0 then "-"%char else "+"%char) ::
  digits_w (Nat.max 2 (ndig (Z.abs X))) (Z.abs X).

(** "%.6g" of the positive number with digits (D, X).
    Part of the conversion of numbers by std::ostream, as in src/Dataset.cpp lines 102-107. *)
Definition fmt_g (D X : Z) : bytes :=
  let ds := digits_w 6 D in
  if (-4 <=? X) && (X <? 6) then
    if 0 <=? X then
      firstn (Z.to_nat X + 1) ds ++ frac (skipn (Z.to_nat X + 1) ds)
    else
      "0"%char :: frac (repeat "0"%char (Z.to_nat (- X) - 1) ++ ds)
  else
    firstn 1 ds ++ frac (skipn 1 ds) ++ exp_suffix X.

(** The positive finite number m * 2^e as a ratio of integers.
    Part of the conversion of numbers by std::ostream, as in src/Dataset.cpp lines 102-107. *)
Definition ratio_of (m : positive) (e : Z) : Z * Z :=
  if 0 <=? e then (Zpos m * 2 ^ e, 1) else (Zpos m, 2 ^ (- e)).

(** `os << x` for a float or double x with default flags. src/Dataset.cpp lines 104 and 107. *)
Definition print_float {prec emax} (x : binary_float prec emax) : bytes :=
  match x with
  | B754_zero s => (if s then $"-" else []) ++ $"0"
  | B754_infinity s => (if s then $"-" else []) ++ $"inf"
  | B754_nan => $"nan"
  | B754_finite s m e _ =>
      let '(n, d) := ratio_of m e in
      let '(D, X) := dec6 n d in
      (if s then $"-" else []) ++ fmt_g D X
  end.

(** Longest prefix of decimal digits, and the rest.
    Part of std::stoi, std::stod and std::stof, src/helpers/Parser.cpp lines 93, 101 and 109. *)
Fixpoint span_digits (s : bytes) : bytes * bytes :=
  match s with
  | c :: r => if is_digit c then let '(a, b) := span_digits r in (c :: a, b) else ([], s)
  | [] => ([], [])
  end.

(** Value of a string of decimal digits.
    Part of std::stoi, std::stod and std::stof, src/helpers/Parser.cpp lines 93, 101 and 109. *)
Definition digits_val (s : bytes) : Z := fold_left (fun a c => a * 10 + digit_val c) s 0.

(** Leading white space skipped by strtol/strtod.
    Part of std::stoi, std::stod and std::stof, src/helpers/Parser.cpp lines 93, 101 and 109. *)
Fixpoint drop_space (s : bytes) : bytes :=
  match s with
  | c :: r => if isspace c then drop_space r else s
  | [] => []
  end.

(** Optional sign of strtol/strtod: true when negative.
    Part of std::stoi, std::stod and std::stof, src/helpers/Parser.cpp lines 93, 101 and 109. *)
Definition take_sign (s : bytes) : bool * bytes :=
  match s with
  | c :: r => if Ascii.eqb c "-" then (true, r) else if Ascii.eqb c "+" then (false, r) else (false, s)
  | [] => (false, [])
  end.

(** std::stoi: value and unconsumed text; invalid_argument without digits, out_of_range outside int. *)
Definition stoi (s : bytes) : outcome (Z * bytes) :=
  let '(neg, s1) := take_sign (drop_space s) in
  let '(ds, rest) := span_digits s1 in
  match ds with
  | [] => Throw
  | _ => let v := if neg then - digits_val ds else digits_val ds in
         if (-2147483648 <=? v) && (v <=? 2147483647) then Ok (v, rest) else Throw
  end.

(** std::stoul / std::stoull (64 bits): a minus sign negates modulo 2^64. *)
Definition stoul (s : bytes) : outcome (Z * bytes) :=
  let '(neg, s1) := take_sign (drop_space s) in
  let '(ds, rest) := span_digits s1 in
  match ds with
  | [] => Throw
  | _ => let v := digits_val ds in
         if v <? 2 ^ 64 then Ok (if neg then (- v) mod 2 ^ 64 else v, rest) else Throw
  end.

(** Case-insensitive prefix test used for "inf" and "nan".
    Part of std::stoi, std::stod and std::stof, src/helpers/Parser.cpp lines 93, 101 and 109. *)
Definition lower (c : ascii) : ascii :=
  let n := N_of_ascii c in if ((65 <=? n) && (n <=? 90))%N then ascii_of_N (n + 32) else c.
(** Part of std::stoi, std::stod and std::stof, src/helpers/Parser.cpp lines 93, 101 and 109. *)
Fixpoint drop_prefix_ci (p s : bytes) : option bytes :=
  match p, s with
  | [], _ => Some s
  | c :: p', d :: s' => if Ascii.eqb c (lower d) then drop_prefix_ci p' s' else None
  | _ :: _, [] => None
  end.

(** What strtod recognises: a decimal number mant * 10^exp, infinity or NaN; the unconsumed text.
    Part of std::stoi, std::stod and std::stof, src/helpers/Parser.cpp lines 93, 101 and 109. *)
Inductive numtok :=
| NumDec (neg : bool) (mant : Z) (exp : Z)
| NumHex (neg : bool) (mant : Z) (exp : Z)
| NumInf (neg : bool)
| NumNan.

(** Exponent part [e|E][+|-]digits; absent or malformed gives exponent 0 and consumes nothing.
    Part of std::stoi, std::stod and std::stof, src/helpers/Parser.cpp lines 93, 101 and 109. *)
Definition lex_exp (marker : ascii) (s : bytes) : Z * bytes :=
  match s with
  | c :: r =>
      if Ascii.eqb (lower c) marker then
        let '(neg, r1) := take_sign r in
        let '(ds, rest) := span_digits r1 in
        match ds with
        | [] => (0, s)
        | _ => (if neg then - digits_val ds else digits_val ds, rest)
        end
      else (0, s)
  | [] => (0, s)
  end.

(** Decimal significand digits[.digits] and exponent.
    Part of std::stoi, std::stod and std::stof, src/helpers/Parser.cpp lines 93, 101 and 109. *)
Definition lex_dec (neg : bool) (s : bytes) : option (numtok * bytes) :=
  let '(a, r1) := span_digits s in
  let '(b, r2) := match r1 with
                  | c :: r => if Ascii.eqb c "." then
                                let '(b, r') := span_digits r in
                                match a, b with [], [] => ([], r1) | _, _ => (b, r') end
                              else ([], r1)
                  | [] => ([], [])
                  end in
  match a ++ b with
  | [] => None
  | ds => let '(e, rest) := lex_exp "e" r2 in
          Some (NumDec neg (digits_val ds) (e - Z.of_nat (List.length b)), rest)
  end.

(** Hexadecimal digits (strtod accepts 0x significands).
    Part of std::stoi, std::stod and std::stof, src/helpers/Parser.cpp lines 93, 101 and 109. *)
Definition hex_val (c : ascii) : option Z :=
  let n := N_of_ascii (lower c) in
  if ((48 <=? n) && (n <=? 57))%N then Some (Z.of_N n - 48)
  else if ((97 <=? n) && (n <=? 102))%N then Some (Z.of_N n - 87) else None.
(** Part of std::stoi, std::stod and std::stof, src/helpers/Parser.cpp lines 93, 101 and 109. *)
Fixpoint span_hex (s : bytes) : list Z * bytes :=
  match s with
  | c :: r => match hex_val c with
              | Some v => let '(a, b) := span_hex r in (v :: a, b)
              | None => ([], s)
              end
  | [] => ([], [])
  end.
(** Part of std::stoi, std::stod and std::stof, src/helpers/Parser.cpp lines 93, 101 and 109. *)
Definition lex_hex (neg : bool) (s : bytes) : option (numtok * bytes) :=
  let '(a, r1) := span_hex s in
  let '(b, r2) := match r1 with
                  | c :: r => if Ascii.eqb c "." then span_hex r else ([], r1)
                  | [] => ([], [])
                  end in
  match a ++ b with
  | [] => None
  | ds => let '(e, rest) := lex_exp "p" r2 in
          Some (NumHex neg (fold_left (fun x d => x * 16 + d) ds 0) (e - 4 * Z.of_nat (List.length b)), rest)
  end.

(** The subject sequence of strtod/strtof.
    Part of std::stoi, std::stod and std::stof, src/helpers/Parser.cpp lines 93, 101 and 109. *)
Definition lex_num (s : bytes) : option (numtok * bytes) :=
  let '(neg, s1) := take_sign (drop_space s) in
  match drop_prefix_ci ($"infinity") s1 with
  | Some r => Some (NumInf neg, r)
  | None =>
  match drop_prefix_ci ($"inf") s1 with
  | Some r => Some (NumInf neg, r)
  | None =>
  match drop_prefix_ci ($"nan") s1 with
  | Some r => Some (NumNan, r)
  | None =>
  match match drop_prefix_ci ($"0x") s1 with Some r => lex_hex neg r | None => None end with
  | Some x => Some x
  | None => lex_dec neg s1
  end end end end.

(** Correctly rounded value of the positive ratio n/d with sign [s].
    Part of std::stoi, std::stod and std::stof, src/helpers/Parser.cpp lines 93, 101 and 109. *)
Definition ratio_SF (prec emax : Z) (s : bool) (n d : positive) : spec_float :=
  let '(mz, ez, lz) := SFdiv_core_binary prec emax (Zpos n) 0 (Zpos d) 0 in
  binary_round_aux prec emax mode_NE s mz ez lz.

Lemma ratio_SF_valid prec emax (Hp : Prec_gt_0 prec) (He : Prec_lt_emax prec emax) s n d :
  valid_binary prec emax (ratio_SF prec emax s n d) = true.
Proof.
  generalize (proj1 (Bdiv_correct_aux prec emax Hp He mode_NE s n 0 false d 0)).
  now rewrite xorb_false_r.
Qed.

(** Part of std::stoi, std::stod and std::stof, src/helpers/Parser.cpp lines 93, 101 and 109. *)
Definition ratio_float (prec emax : Z) (Hp : Prec_gt_0 prec) (He : Prec_lt_emax prec emax)
  (s : bool) (n d : positive) : binary_float prec emax :=
  SF2B (ratio_SF prec emax s n d) (ratio_SF_valid prec emax Hp He s n d).

(** The ratio mant * base^exp for mant > 0.
    Part of std::stoi, std::stod and std::stof, src/helpers/Parser.cpp lines 93, 101 and 109. *)
Definition ratio_of_dec (base : Z) (mant : positive) (exp : Z) : positive * positive :=
  if 0 <=? exp then (Z.to_pos (Zpos mant * base ^ exp), 1%positive)
  else (mant, Z.to_pos (base ^ (- exp))).

(** Exactness of a rounded result: x = n/d.
    Part of std::stoi, std::stod and std::stof, src/helpers/Parser.cpp lines 93, 101 and 109. *)
Definition exact_ratio {prec emax} (x : binary_float prec emax) (n d : positive) : bool :=
  match x with
  | B754_finite _ m e _ => let '(a, b) := ratio_of m e in a * Zpos d =? b * Zpos n
  | _ => false
  end.

(** Magnitude below the smallest normal number 2^(3 - emax - 1 + ... ): 2^(2 - emax).
    Part of std::stoi, std::stod and std::stof, src/helpers/Parser.cpp lines 93, 101 and 109. *)
Definition below_normal {prec emax} (x : binary_float prec emax) : bool :=
  match x with
  | B754_zero _ => true
  | B754_finite _ m e _ => Z.log2 (Zpos m) + e <? 2 - emax
  | _ => false
  end.

(** Value of strtod/strtof on a recognised number; [Throw] is std::out_of_range, raised by stod/stof
    when errno is ERANGE: overflow, or an inexact result below the normal range. *)
Definition value_ratio prec emax Hp He (neg : bool) (n d : positive) : outcome (binary_float prec emax) :=
  let x := ratio_float prec emax Hp He neg n d in
  match x with
  | B754_infinity _ => Throw
  | _ => if below_normal x && negb (exact_ratio x n d) then Throw else Ok x
  end.
(** Part of std::stoi, std::stod and std::stof, src/helpers/Parser.cpp lines 93, 101 and 109. *)
Definition value_of prec emax Hp He (t : numtok) : outcome (binary_float prec emax) :=
  match t with
  | NumInf neg => Ok (B754_infinity neg)
  | NumNan => Ok B754_nan
  | NumDec neg mant exp =>
      match mant with
      | Zpos m => let '(n, d) := ratio_of_dec 10 m exp in value_ratio prec emax Hp He neg n d
      | _ => Ok (B754_zero neg)
      end
  | NumHex neg mant exp =>
      match mant with
      | Zpos m => let '(n, d) := ratio_of_dec 2 m exp in value_ratio prec emax Hp He neg n d
      | _ => Ok (B754_zero neg)
      end
  end.

(** std::stof / std::stod: value and unconsumed text. *)
Definition stoX prec emax Hp He (s : bytes) : outcome (binary_float prec emax * bytes) :=
  match lex_num s with
  | None => Throw
  | Some (t, rest) => let* v := value_of prec emax Hp He t in Ok (v, rest)
  end.
(** std::stof, src/helpers/Parser.cpp line 109 and src/Apollo.cpp lines 151-154. *)
Definition stof (s : bytes) : outcome (f32 * bytes) := stoX 24 128 _ _ s.
(** std::stod, src/helpers/Parser.cpp line 101. *)
Definition stod (s : bytes) : outcome (f64 * bytes) := stoX 53 1024 _ _ s.
