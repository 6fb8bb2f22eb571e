(** Property C103: the numbers in files. *)
From Coq Require Import List ZArith Bool Reals Ascii String.
From Flocq Require Import Core BinarySingleNaN.
From Verif Require Import Model.Base Model.Float Model.Decimal Model.ParserM Spec.NumeralSpec Proofs.NumeralTokens Proofs.NumeralExamples.
Import ListNotations.
Open Scope Z_scope.

Theorem C103_float : forall p s neg x t, p_off p = O -> token p = s ++ t -> numeral_text s neg x -> stops t ->
  exists o p', reads_as neg x o /\ token p' = t /\ p_in p' = p_in p /\ parse_float p = let* y := o in Ok (y, p').
Proof. exact float_token. Qed.
Print Assumptions C103_float.

Theorem C103_double : forall p s neg x t, p_off p = O -> token p = s ++ t -> numeral_text s neg x -> stops t ->
  exists o p', reads_as neg x o /\ token p' = t /\ p_in p' = p_in p /\ parse_double p = let* y := o in Ok (y, p').
Proof. exact double_token. Qed.
Print Assumptions C103_double.

Theorem C103_words : forall p s t, p_off p = O -> token p = s ++ t -> stops t ->
  (forall y, word_text s y -> exists p', token p' = t /\ p_in p' = p_in p /\ parse_float p = Ok (y, p')) /\
  (forall y, word_text s y -> exists p', token p' = t /\ p_in p' = p_in p /\ parse_double p = Ok (y, p')).
Proof. exact word_tokens. Qed.
Print Assumptions C103_words.

Theorem C103_only_floats : forall p y p', p_off p = O -> parse_float p = Ok (y, p') ->
  exists sp w, token p = sp ++ w ++ token p' /\ white sp /\ (word_text w y \/ exists neg x, numeral_text w neg x /\ reads_as neg x (Ok y)).
Proof. exact float_only. Qed.
Print Assumptions C103_only_floats.

Theorem C103_only_doubles : forall p y p', p_off p = O -> parse_double p = Ok (y, p') ->
  exists sp w, token p = sp ++ w ++ token p' /\ white sp /\ (word_text w y \/ exists neg x, numeral_text w neg x /\ reads_as neg x (Ok y)).
Proof. exact double_only. Qed.
Print Assumptions C103_only_doubles.

Theorem C103_int : forall p sg neg b va t, p_off p = O -> token p = sg ++ b ++ t -> sign_text sg neg -> places false b va -> b <> [] -> stops t ->
  let v := if neg then - value 10 va else value 10 va in
  (-2147483648 <= v <= 2147483647 -> exists p', token p' = t /\ p_in p' = p_in p /\ parse_int p = Ok (v, p')) /\
  (~ -2147483648 <= v <= 2147483647 -> parse_int p = Throw).
Proof. exact int_token. Qed.
Print Assumptions C103_int.

Theorem C103_unsigned : forall p sg neg b va t, p_off p = O -> token p = sg ++ b ++ t -> sign_text sg neg -> places false b va -> b <> [] -> stops t ->
  (value 10 va < 2 ^ 64 -> exists p', token p' = t /\ p_in p' = p_in p /\
     parse_ulong p = Ok ((if neg then - value 10 va else value 10 va) mod 2 ^ 64, p') /\
     parse_uint p = Ok ((if neg then - value 10 va else value 10 va) mod 2 ^ 32, p')) /\
  (2 ^ 64 <= value 10 va -> parse_ulong p = Throw /\ parse_uint p = Throw).
Proof. exact unsigned_tokens. Qed.
Print Assumptions C103_unsigned.

Theorem C103_only_ints : forall p v p', p_off p = O -> parse_int p = Ok (v, p') ->
  exists sp sg neg b va, token p = sp ++ sg ++ b ++ token p' /\ white sp /\ sign_text sg neg /\ places false b va /\ b <> [] /\
    v = (if neg then - value 10 va else value 10 va).
Proof. exact int_only. Qed.
Print Assumptions C103_only_ints.

Theorem C103_only_unsigned : forall p v p', p_off p = O -> parse_ulong p = Ok (v, p') ->
  exists sp sg neg b va, token p = sp ++ sg ++ b ++ token p' /\ white sp /\ sign_text sg neg /\ places false b va /\ b <> [] /\
    v = (if neg then - value 10 va else value 10 va) mod 2 ^ 64.
Proof. exact unsigned_only. Qed.
Print Assumptions C103_only_unsigned.

(** -0x1.8P+1 is -3; 10^39 is too large for a float; the last numeral of an unsigned int is one above its range. *)
Example C103_nonvacuous :
  (exists x, numeral_text ($"-0x1.8P+1") true x /\ x = 3%R) /\ stops ($",") /\ is_b (parse_float (at_token ($"-0x1.8P+1,"))) (-3) ($",") = true /\
  (exists x, numeral_text ($"1e39") false x /\ x = IZR (10 ^ 39)) /\ thrown_b (parse_float (at_token ($"1e39"))) = true /\
  parse_uint (at_token ($"4294967296,")) = Ok (0, mkParser [] ($"4294967296,") 10).
Proof.
  split; [exact ex_hex|]. split; [apply stops_comma|]. split; [vm_compute; reflexivity|]. split; [exact ex_large|]. split; vm_compute; reflexivity.
Qed.
