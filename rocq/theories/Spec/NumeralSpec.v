(** Numerals and the floating-point numbers they stand for (C standard, 7.22.1.3; C++ standard, [string.conversions]). *)
From Coq Require Import List ZArith Bool Reals Ascii String.
From Flocq Require Import Core BinarySingleNaN.
From Verif Require Import Model.Base.
Import ListNotations.
Open Scope Z_scope.

(** The character [c] is the digit [d]. *)
Definition digit_of (hex : bool) (c : ascii) (d : Z) : Prop := exists n, d = Z.of_nat n /\
  if hex then nth_error ($"0123456789abcdef") n = Some c \/ nth_error ($"0123456789ABCDEF") n = Some c
  else nth_error ($"0123456789") n = Some c.

Definition places (hex : bool) (text : bytes) (ds : list Z) : Prop := Forall2 (digit_of hex) text ds.

Definition value (base : Z) (ds : list Z) : Z := fold_left (fun a d => a * base + d) ds 0.

Inductive sign_text : bytes -> bool -> Prop :=
| no_sign : sign_text [] false
| plus_sign : sign_text ["+"%char] false
| minus_sign : sign_text ["-"%char] true.

(** A fraction with its point. *)
Inductive fraction_text (hex : bool) : bytes -> list Z -> Prop :=
| no_fraction : fraction_text hex [] []
| a_fraction b ds : places hex b ds -> fraction_text hex ("."%char :: b) ds.

(** An exponent with its letter; its digits are decimal. *)
Inductive exponent_text (hex : bool) : bytes -> Z -> Prop :=
| no_exponent : exponent_text hex [] 0
| an_exponent m sg neg b ds : In m (if hex then ["p"; "P"]%char else ["e"; "E"]%char) -> sign_text sg neg -> places false b ds -> b <> [] ->
    exponent_text hex (m :: sg ++ b) (if neg then - value 10 ds else value 10 ds).

(** [numeral_text s neg x]: [s] is a numeral, with a minus sign if [neg]; its magnitude is [x]. *)
Inductive numeral_text : bytes -> bool -> R -> Prop :=
| decimal sg neg a va f vf e ve : sign_text sg neg -> places false a va -> fraction_text false f vf -> va ++ vf <> [] -> exponent_text false e ve ->
    numeral_text (sg ++ a ++ f ++ e) neg (IZR (value 10 (va ++ vf)) * powerRZ 10 (ve - Z.of_nat (List.length vf)))
| hexadecimal sg neg h a va f vf e ve : sign_text sg neg -> In h [$"0x"; $"0X"] -> places true a va -> fraction_text true f vf -> va ++ vf <> [] -> exponent_text true e ve ->
    numeral_text (sg ++ h ++ a ++ f ++ e) neg (IZR (value 16 (va ++ vf)) * powerRZ 2 (ve - 4 * Z.of_nat (List.length vf))).

(** The text [t] does not go on with the number before it: it does not begin with a letter, a digit or a point. *)
Definition stops (t : bytes) : Prop :=
  match t with
  | [] => True
  | c :: _ => ~ In c ($"0123456789.abcdefghijklmnopqrstuvwxyzABCDEFGHIJKLMNOPQRSTUVWXYZ")
  end.

(** [reads_as neg x o]: [o] is the number of the format nearest to the magnitude [x] with that sign, ties to even; out of range if that is too
    large, or if it is below the normal numbers and not exact. *)
Definition reads_as {prec emax : Z} (neg : bool) (x : R) (o : outcome (binary_float prec emax)) : Prop :=
  let v := (if neg then - x else x)%R in
  let r := round radix2 (SpecFloat.fexp prec emax) ZnearestE v in
  (x = 0%R -> o = Ok (B754_zero neg)) /\
  (x <> 0%R -> (bpow radix2 emax <= Rabs r)%R -> o = Throw) /\
  (x <> 0%R -> (Rabs r < bpow radix2 emax)%R -> (bpow radix2 (2 - emax) <= Rabs r)%R \/ r = v ->
     exists y, o = Ok y /\ is_finite y = true /\ Bsign y = neg /\ B2R y = r) /\
  (x <> 0%R -> (Rabs r < bpow radix2 (2 - emax))%R -> r <> v -> o = Throw).

(** The words for infinity and for no number, in any case of letters. *)
Definition upper (c : ascii) : ascii := let n := N_of_ascii c in if ((97 <=? n) && (n <=? 122))%N then ascii_of_N (n - 32) else c.
Inductive word_text {prec emax : Z} : bytes -> binary_float prec emax -> Prop :=
| infinity_text sg neg w : sign_text sg neg -> In (map upper w) [$"INF"; $"INFINITY"] -> word_text (sg ++ w) (B754_infinity neg)
| nan_text sg neg w : sign_text sg neg -> map upper w = $"NAN" -> word_text (sg ++ w) B754_nan.

Definition white (s : bytes) : Prop := Forall (fun c => In c [" "; "009"; "010"; "011"; "012"; "013"]%char) s.
