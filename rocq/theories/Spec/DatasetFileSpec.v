(** Dataset files: the layout written by src/python/modeling/create-dataset.py, decimal literals, and
    what a store/load cycle does to the numbers of a measurement. *)
From Coq Require Import List ZArith Bool Ascii String Reals.
From Flocq Require Import Core BinarySingleNaN.
From Verif Require Import Model.Base Model.Float Model.Decimal Spec.DatasetSpec Spec.DecimalSpec.
Import ListNotations.
Open Scope Z_scope.

(** A measurement as written in a file: each number is a text together with its value. *)
Record file_record := mkRec {
  r_index : bytes;
  r_features : list (bytes * f32);
  r_policy : bytes * Z;
  r_metric : bytes * f64
}.
Definition r_meas (r : file_record) : meas :=
  (map snd (r_features r), snd (r_policy r), snd (r_metric r)).

(** create-dataset.py lines 12-21. *)
Definition python_line (r : file_record) : bytes :=
  $"  " ++ r_index r ++ $": { features: [ "
  ++ List.concat (map (fun f => fst f ++ $", ") (r_features r))
  ++ $"]" ++ $", policy: " ++ fst (r_policy r)
  ++ $", xtime: " ++ fst (r_metric r) ++ $" }," ++ [nl].

(** A text that can stand in a token: no white space, no NUL, not a comment, not too long. *)
Definition plain_text (w : bytes) : Prop :=
  w <> [] /\ (List.length w <= 62)%nat /\ hd_error w <> Some "#"%char /\
  Forall (fun c => isspace c = false /\ c <> nul) w.

(** The texts spell their values: std::stoi/stof/stod convert them and stop at the punctuation. *)
Definition well_spelled (r : file_record) : Prop :=
  (plain_text (r_index r) /\ exists v, stoi (r_index r ++ $":") = Ok (v, $":")) /\
  Forall (fun f => plain_text (fst f) /\ stof (fst f ++ $",") = Ok (snd f, $",")) (r_features r) /\
  (plain_text (fst (r_policy r)) /\ stoi (fst (r_policy r) ++ $",") = Ok (snd (r_policy r), $",")) /\
  (plain_text (fst (r_metric r)) /\ exists rest, stod (fst (r_metric r)) = Ok (snd (r_metric r), rest)).

(** Decimal literals [-]digits[.digits][e[+-]digits]. *)
Record decimal := mkDecimal {
  d_neg : bool;
  d_int : bytes;
  d_frac : option bytes;
  d_exp : option (bool * bytes)
}.
Definition d_text (d : decimal) : bytes :=
  (if d_neg d then $"-" else []) ++ d_int d
  ++ match d_frac d with Some f => "."%char :: f | None => [] end
  ++ match d_exp d with
     | Some (neg, e) => "e"%char :: (if neg : bool then "-"%char else "+"%char) :: e
     | None => []
     end.
(** Value of a string of digits, most significant first. *)
Definition number (l : bytes) : Z :=
  fold_left (fun n c => 10 * n + (Z.of_N (N_of_ascii c) - Z.of_N (N_of_ascii "0"))) l 0.
Definition all_digits (l : bytes) : Prop := l <> [] /\ Forall (fun c => is_digit c = true) l.
Definition d_wf (d : decimal) : Prop :=
  all_digits (d_int d) /\
  match d_frac d with Some f => all_digits f | None => True end /\
  match d_exp d with Some (_, e) => all_digits e | None => True end.
Definition d_value (d : decimal) : R :=
  let frac := match d_frac d with Some f => f | None => [] end in
  let e := match d_exp d with Some (true, e) => - number e | Some (false, e) => number e | None => 0 end in
  let v := (IZR (number (d_int d)) + IZR (number frac) * bpow radix10 (- Z.of_nat (List.length frac)))%R in
  ((if d_neg d then -1 else 1) * v * bpow radix10 e)%R.

(** Every number of the measurement replaced by what its six-digit rendering reads back as. *)
Definition meas_copy (a b : meas) : Prop :=
  Forall2 six_digit_copy (m_features a) (m_features b) /\ m_policy a = m_policy b /\
  six_digit_copy (m_metric a) (m_metric b).

Definition meas_normal (a : meas) : Prop :=
  Forall normal_range (m_features a) /\ normal_range (m_metric a).

(** Values of the C++ type int. *)
Definition is_int (z : Z) : Prop := -2147483648 <= z <= 2147483647.

(** The number is an integer with at most six digits. *)
Definition small_integer {prec emax} (x : binary_float prec emax) : Prop :=
  exists z, is_finite x = true /\ B2R x = IZR z /\ Z.abs z < 1000000.
