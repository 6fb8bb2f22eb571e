(** Numerals in tokens. *)
From Coq Require Import List ZArith NArith Bool Reals Ascii String Lia Lra.
From Flocq Require Import Core BinarySingleNaN.
From Verif Require Import Model.Base Model.Float Model.Decimal Model.ParserM Spec.DecimalSpec Spec.NumeralSpec
  Proofs.DecimalInt Proofs.DecimalFloat Proofs.DecimalRead Proofs.TreeFacts Proofs.Numerals.
Import ListNotations.
Open Scope Z_scope.

Lemma cstr_skip s : forall b t, cstr b = s ++ t -> cstr (skipn (List.length s) b) = t.
Proof.
  induction s as [|c s IH]; intros b t E; [exact E|]. destruct b as [|d b]; [discriminate E|]. cbn [cstr] in E. destruct (Ascii.eqb d nul); [discriminate E|].
  cbn [app] in E. injection E as _ E. cbn [List.length skipn]. apply IH. exact E.
Qed.

Lemma token_after p s t : p_off p = O -> token p = s ++ t -> token (after_parse p t) = t /\ p_in (after_parse p t) = p_in p.
Proof.
  intros O E. split; [|reflexivity]. unfold after_parse. rewrite E, app_length, Nat.add_sub. unfold token in *. cbn [p_off p_buf]. rewrite O in E. apply cstr_skip. exact E.
Qed.

Lemma float_token p s neg x t : p_off p = O -> token p = s ++ t -> numeral_text s neg x -> stops t ->
  exists o p', reads_as neg x o /\ token p' = t /\ p_in p' = p_in p /\ parse_float p = let* y := o in Ok (y, p').
Proof.
  intros O E N S. destruct (numeral_reads (prec := 24) (emax := 128) _ _ [] s neg x t (Forall_nil _) N S) as (o & R & X). destruct (token_after p s t O E) as [T1 T2].
  exists o, (after_parse p t). split; [exact R|]. split; [exact T1|]. split; [exact T2|]. unfold parse_float, stof. rewrite E. cbn [app] in X. rewrite X.
  destruct o; reflexivity.
Qed.

Lemma double_token p s neg x t : p_off p = O -> token p = s ++ t -> numeral_text s neg x -> stops t ->
  exists o p', reads_as neg x o /\ token p' = t /\ p_in p' = p_in p /\ parse_double p = let* y := o in Ok (y, p').
Proof.
  intros O E N S. destruct (numeral_reads (prec := 53) (emax := 1024) _ _ [] s neg x t (Forall_nil _) N S) as (o & R & X). destruct (token_after p s t O E) as [T1 T2].
  exists o, (after_parse p t). split; [exact R|]. split; [exact T1|]. split; [exact T2|]. unfold parse_double, stod. rewrite E. cbn [app] in X. rewrite X.
  destruct o; reflexivity.
Qed.

Lemma word_tokens p s t : p_off p = O -> token p = s ++ t -> stops t ->
  (forall y, word_text s y -> exists p', token p' = t /\ p_in p' = p_in p /\ parse_float p = Ok (y, p')) /\
  (forall y, word_text s y -> exists p', token p' = t /\ p_in p' = p_in p /\ parse_double p = Ok (y, p')).
Proof.
  intros O E S. destruct (token_after p s t O E) as [T1 T2]. split; intros y N; exists (after_parse p t); (split; [exact T1|]); (split; [exact T2|]).
  - assert (X := word_reads (prec := 24) (emax := 128) _ _ [] s y t (Forall_nil _) N S). unfold parse_float, stof. rewrite E. cbn [app] in X. rewrite X. reflexivity.
  - assert (X := word_reads (prec := 53) (emax := 1024) _ _ [] s y t (Forall_nil _) N S). unfold parse_double, stod. rewrite E. cbn [app] in X. rewrite X. reflexivity.
Qed.

Lemma float_only p y p' : p_off p = O -> parse_float p = Ok (y, p') ->
  exists sp w, token p = sp ++ w ++ token p' /\ white sp /\ (word_text w y \/ exists neg x, numeral_text w neg x /\ reads_as neg x (Ok y)).
Proof.
  intros O E. unfold parse_float, stof in E. apply bind_inv in E as ([z t] & E & K). cbn [fst snd] in K. injection K as <- <-.
  destruct (read_inv _ _ _ _ _ E) as (sp & w & ET & W & H). rewrite app_assoc in ET. destruct (token_after p (sp ++ w) t O ET) as [T _]. exists sp, w. rewrite T, app_assoc. auto.
Qed.

Lemma double_only p y p' : p_off p = O -> parse_double p = Ok (y, p') ->
  exists sp w, token p = sp ++ w ++ token p' /\ white sp /\ (word_text w y \/ exists neg x, numeral_text w neg x /\ reads_as neg x (Ok y)).
Proof.
  intros O E. unfold parse_double, stod in E. apply bind_inv in E as ([z t] & E & K). cbn [fst snd] in K. injection K as <- <-.
  destruct (read_inv _ _ _ _ _ E) as (sp & w & ET & W & H). rewrite app_assoc in ET. destruct (token_after p (sp ++ w) t O ET) as [T _]. exists sp, w. rewrite T, app_assoc. auto.
Qed.

(** ** Integers *)

Lemma digits_sign sg neg b va t : sign_text sg neg -> places false b va -> b <> [] -> stops t ->
  take_sign (drop_space (sg ++ b ++ t)) = (neg, b ++ t) /\ span_digits (b ++ t) = (b, t) /\ digits_val b = value 10 va.
Proof.
  intros SG P N S. destruct (dec_places b va P) as (F & V & _). split; [|split; [|exact V]].
  - apply signed; [exact SG|]. destruct b as [|c b]; [contradiction N; reflexivity|]. exact (isdig_props c (Forall_inv F)).
  - apply span_digits_app; [exact F|]. apply stops_no_digit. exact S.
Qed.

Lemma int_token p sg neg b va t : p_off p = O -> token p = sg ++ b ++ t -> sign_text sg neg -> places false b va -> b <> [] -> stops t ->
  let v := if neg then - value 10 va else value 10 va in
  (-2147483648 <= v <= 2147483647 -> exists p', token p' = t /\ p_in p' = p_in p /\ parse_int p = Ok (v, p')) /\
  (~ -2147483648 <= v <= 2147483647 -> parse_int p = Throw).
Proof.
  intros O E SG P N S v. destruct (digits_sign sg neg b va t SG P N S) as (X1 & X2 & X3). rewrite app_assoc in E. destruct (token_after p (sg ++ b) t O E) as [T1 T2].
  unfold parse_int. rewrite E, <- app_assoc. unfold stoi. rewrite X1, X2. destruct b as [|c b]; [contradiction N; reflexivity|]. rewrite X3. fold v. split; intros R.
  - exists (after_parse p t). split; [exact T1|]. split; [exact T2|]. replace ((-2147483648 <=? v) && (v <=? 2147483647)) with true; [reflexivity|].
    symmetry. apply andb_true_intro. split; apply Z.leb_le; lia.
  - replace ((-2147483648 <=? v) && (v <=? 2147483647)) with false; [reflexivity|]. symmetry. apply andb_false_iff. destruct (Z.leb_spec (-2147483648) v); [right|left; reflexivity]. apply Z.leb_gt. lia.
Qed.

Lemma unsigned_tokens p sg neg b va t : p_off p = O -> token p = sg ++ b ++ t -> sign_text sg neg -> places false b va -> b <> [] -> stops t ->
  (value 10 va < 2 ^ 64 -> exists p', token p' = t /\ p_in p' = p_in p /\
     parse_ulong p = Ok ((if neg then - value 10 va else value 10 va) mod 2 ^ 64, p') /\
     parse_uint p = Ok ((if neg then - value 10 va else value 10 va) mod 2 ^ 32, p')) /\
  (2 ^ 64 <= value 10 va -> parse_ulong p = Throw /\ parse_uint p = Throw).
Proof.
  intros O E SG P N S. destruct (digits_sign sg neg b va t SG P N S) as (X1 & X2 & X3). rewrite app_assoc in E. destruct (token_after p (sg ++ b) t O E) as [T1 T2].
  assert (NN : 0 <= value 10 va) by (apply value_nonneg; [lia|exact (places_nonneg _ _ _ P)]).
  unfold parse_ulong, parse_uint. rewrite E, <- app_assoc. unfold stoul. rewrite X1, X2. destruct b as [|c b]; [contradiction N; reflexivity|]. rewrite X3. split; intros R.
  - exists (after_parse p t). split; [exact T1|]. split; [exact T2|]. destruct (Z.ltb_spec (value 10 va) (2 ^ 64)); [|lia]. cbn [bind fst snd]. destruct neg.
    + split; [reflexivity|]. rewrite <- Znumtheory.Zmod_div_mod; [reflexivity|lia|lia|]. exists (2 ^ 32). reflexivity.
    + split; [rewrite Z.mod_small by lia; reflexivity|reflexivity].
  - destruct (Z.ltb_spec (value 10 va) (2 ^ 64)); [lia|]. split; reflexivity.
Qed.

Lemma int_only p v p' : p_off p = O -> parse_int p = Ok (v, p') ->
  exists sp sg neg b va, token p = sp ++ sg ++ b ++ token p' /\ white sp /\ sign_text sg neg /\ places false b va /\ b <> [] /\ v = (if neg then - value 10 va else value 10 va).
Proof.
  intros O E. unfold parse_int, stoi in E. apply bind_inv in E as ([z t] & E & K). cbn [fst snd] in K. injection K as <- <-.
  destruct (drop_space_inv (token p)) as (sp & ES & W). destruct (take_sign (drop_space (token p))) as [neg r] eqn:TS. apply take_sign_inv in TS as (sg & ED & SG).
  destruct (span_digits r) as [b q] eqn:SD. apply span_digits_digits in SD as (F & -> & _). destruct (places_dec b F) as (va & P). destruct (dec_places b va P) as (_ & V & _).
  destruct b as [|c b]; [discriminate E|]. rewrite V in E. revert E. destruct (_ && _); [|discriminate]. intros E. injection E as <- <-.
  assert (ET : token p = sp ++ sg ++ (c :: b) ++ q) by (rewrite ES at 1; rewrite ED; reflexivity).
  assert (ET2 : token p = (sp ++ sg ++ (c :: b)) ++ q) by (rewrite <- !app_assoc; exact ET).
  destruct (token_after p _ q O ET2) as [T _].
  exists sp, sg, neg, (c :: b), va. rewrite T. repeat split; auto. discriminate.
Qed.

Lemma unsigned_only p v p' : p_off p = O -> parse_ulong p = Ok (v, p') ->
  exists sp sg neg b va, token p = sp ++ sg ++ b ++ token p' /\ white sp /\ sign_text sg neg /\ places false b va /\ b <> [] /\ v = (if neg then - value 10 va else value 10 va) mod 2 ^ 64.
Proof.
  intros O E. unfold parse_ulong, stoul in E. apply bind_inv in E as ([z t] & E & K). cbn [fst snd] in K. injection K as <- <-.
  destruct (drop_space_inv (token p)) as (sp & ES & W). destruct (take_sign (drop_space (token p))) as [neg r] eqn:TS. apply take_sign_inv in TS as (sg & ED & SG).
  destruct (span_digits r) as [b q] eqn:SD. apply span_digits_digits in SD as (F & -> & _). destruct (places_dec b F) as (va & P). destruct (dec_places b va P) as (_ & V & _).
  assert (NN : 0 <= value 10 va) by (apply value_nonneg; [lia|exact (places_nonneg _ _ _ P)]).
  destruct b as [|c b]; [discriminate E|]. rewrite V in E. revert E. destruct (Z.ltb_spec (value 10 va) (2 ^ 64)); [|discriminate]. intros E. injection E as E <-.
  assert (ET : token p = sp ++ sg ++ (c :: b) ++ q) by (rewrite ES at 1; rewrite ED; reflexivity).
  assert (ET2 : token p = (sp ++ sg ++ (c :: b)) ++ q) by (rewrite <- !app_assoc; exact ET).
  destruct (token_after p _ q O ET2) as [T _].
  exists sp, sg, neg, (c :: b), va. rewrite T. repeat split; auto; [discriminate|]. rewrite <- E. destruct neg; [reflexivity|rewrite Z.mod_small by lia; reflexivity].
Qed.
