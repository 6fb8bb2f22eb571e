(** Reading numerals. *)
From Coq Require Import List ZArith NArith Bool Reals Ascii String Lia Lra.
From Flocq Require Import Core BinarySingleNaN.
From Verif Require Import Model.Base Model.Float Model.Decimal Model.ParserM Spec.DecimalSpec Spec.NumeralSpec
  Proofs.DecimalInt Proofs.DecimalFloat Proofs.DecimalRead.
Import ListNotations.
Open Scope Z_scope.

(** ** Characters, decided by enumeration *)

Definition all_chars : list ascii := map (fun n => ascii_of_N (N.of_nat n)) (seq 0 256).

Lemma all_chars_in c : In c all_chars.
Proof.
  unfold all_chars. apply in_map_iff. exists (N.to_nat (N_of_ascii c)). split; [rewrite N2Nat.id; apply ascii_N_embedding|].
  apply in_seq. assert (B := N_ascii_bounded c). lia.
Qed.

Lemma every_char (p : ascii -> bool) : forallb p all_chars = true -> forall c, p c = true.
Proof. intros F c. rewrite forallb_forall in F. exact (F c (all_chars_in c)). Qed.

Definition inb (c : ascii) (s : bytes) : bool := existsb (Ascii.eqb c) s.
Lemma inb_true c s : inb c s = true <-> In c s.
Proof.
  unfold inb. rewrite existsb_exists. split.
  - intros (x & I & E). apply Ascii.eqb_eq in E as ->. exact I.
  - intros I. exists c. split; [exact I|apply Ascii.eqb_refl].
Qed.

(** Position of a character. *)
Fixpoint position (c : ascii) (s : bytes) : option nat :=
  match s with
  | [] => None
  | d :: r => if Ascii.eqb c d then Some O else option_map S (position c r)
  end.
Lemma position_nth c s n : position c s = Some n -> nth_error s n = Some c.
Proof.
  revert n. induction s as [|d s IH]; intros n E; cbn [position] in E; [discriminate|].
  destruct (Ascii.eqb_spec c d) as [->|]; [injection E as <-; reflexivity|].
  destruct (position c s) as [m|]; [|discriminate]. injection E as <-. cbn [nth_error]. apply IH. reflexivity.
Qed.

Lemma dec_digit c d : digit_of false c d <-> is_digit c = true /\ d = digit_val c.
Proof.
  split.
  - intros (n & -> & E). assert (L : (n < 10)%nat) by (apply (proj1 (nth_error_Some ($"0123456789") n)); rewrite E; discriminate).
    do 10 (destruct n as [|n]; [injection E as <-; split; reflexivity|]). lia.
  - intros [D ->]. assert (X := every_char (fun c => implb (is_digit c) (match position c ($"0123456789") with Some n => Z.of_nat n =? digit_val c | None => false end)) eq_refl c).
    cbv beta in X. rewrite D in X. cbn [implb] in X. destruct (position c ($"0123456789")) as [n|] eqn:P; [|discriminate X]. apply Z.eqb_eq in X.
    exists n. split; [symmetry; exact X|exact (position_nth _ _ _ P)].
Qed.

Lemma hex_digit c d : digit_of true c d <-> hex_val c = Some d.
Proof.
  split.
  - intros (n & -> & [E|E]).
    + assert (L : (n < 16)%nat) by (apply (proj1 (nth_error_Some ($"0123456789abcdef") n)); rewrite E; discriminate).
      do 16 (destruct n as [|n]; [injection E as <-; reflexivity|]). lia.
    + assert (L : (n < 16)%nat) by (apply (proj1 (nth_error_Some ($"0123456789ABCDEF") n)); rewrite E; discriminate).
      do 16 (destruct n as [|n]; [injection E as <-; reflexivity|]). lia.
  - intros D. assert (X := every_char (fun c => match hex_val c with Some d => match position c ($"0123456789abcdef"), position c ($"0123456789ABCDEF") with
      | Some n, _ => Z.of_nat n =? d | None, Some n => Z.of_nat n =? d | None, None => false end | None => true end) eq_refl c).
    cbv beta in X. rewrite D in X. destruct (position c ($"0123456789abcdef")) as [n|] eqn:P.
    + apply Z.eqb_eq in X. exists n. split; [symmetry; exact X|left; exact (position_nth _ _ _ P)].
    + destruct (position c ($"0123456789ABCDEF")) as [n|] eqn:Q; [|discriminate X]. apply Z.eqb_eq in X. exists n. split; [symmetry; exact X|right; exact (position_nth _ _ _ Q)].
Qed.

(** ** Digits *)

Lemma dec_places a va : places false a va -> Forall isdig a /\ digits_val a = value 10 va /\ List.length va = List.length a.
Proof.
  intros P. assert (G : forall z, fold_left (fun x c => x * 10 + digit_val c) a z = fold_left (fun x d => x * 10 + d) va z).
  { induction P as [|c d a va H P IH]; intros z; [reflexivity|]. cbn [fold_left]. apply dec_digit in H as [_ ->]. apply IH. }
  split; [|split; [exact (G 0)|]].
  - induction P as [|c d a va H P IH]; constructor; [apply dec_digit in H as [H _]; exact H|]. apply IH. intros z.
    clear - P. induction P as [|c d a va H P IH] in z |- *; [reflexivity|]. cbn [fold_left]. apply dec_digit in H as [_ ->]. apply IH.
  - clear G. induction P; cbn [List.length]; congruence.
Qed.

Lemma places_dec a : Forall isdig a -> exists va, places false a va.
Proof. induction 1 as [|c a H F [va IH]]; [exists []; constructor|]. exists (digit_val c :: va). constructor; [apply dec_digit; auto|exact IH]. Qed.

Definition no_hex_head (t : bytes) : Prop := match t with c :: _ => hex_val c = None | [] => True end.

Lemma span_hex_app a va t : places true a va -> no_hex_head t -> span_hex (a ++ t) = (va, t).
Proof.
  induction 1 as [|c d a va H P IH]; intros N; cbn [app].
  - destruct t as [|c t]; [reflexivity|]. cbn [span_hex]. cbn [no_hex_head] in N. rewrite N. reflexivity.
  - cbn [span_hex]. apply hex_digit in H. rewrite H, (IH N). reflexivity.
Qed.

Lemma span_hex_inv s : forall va r, span_hex s = (va, r) -> exists a, places true a va /\ s = a ++ r /\ no_hex_head r.
Proof.
  induction s as [|c s IH]; intros va r E; cbn [span_hex] in E.
  - injection E as <- <-. exists []. split; [constructor|]. split; [reflexivity|exact I].
  - destruct (hex_val c) as [d|] eqn:D.
    + destruct (span_hex s) as [va' r'] eqn:E2. injection E as <- <-. destruct (IH _ _ eq_refl) as (a & P & -> & N).
      exists (c :: a). split; [constructor; [apply hex_digit; exact D|exact P]|]. split; [reflexivity|exact N].
    + injection E as <- <-. exists []. split; [constructor|]. split; [reflexivity|exact D].
Qed.

(** ** What may follow *)

Definition stop_char (c : ascii) : Prop := ~ In c ($"0123456789.abcdefghijklmnopqrstuvwxyzABCDEFGHIJKLMNOPQRSTUVWXYZ").
Lemma stop_facts c : stop_char c -> is_digit c = false /\ Ascii.eqb c "." = false /\ Ascii.eqb (lower c) "e" = false /\ Ascii.eqb (lower c) "p" = false /\
  Ascii.eqb (lower c) "x" = false /\ Ascii.eqb (lower c) "i" = false /\ hex_val c = None.
Proof.
  intros S.
  assert (X := every_char (fun c => inb c ($"0123456789.abcdefghijklmnopqrstuvwxyzABCDEFGHIJKLMNOPQRSTUVWXYZ") ||
    (negb (is_digit c) && negb (Ascii.eqb c ".") && negb (Ascii.eqb (lower c) "e") && negb (Ascii.eqb (lower c) "p") &&
     negb (Ascii.eqb (lower c) "x") && negb (Ascii.eqb (lower c) "i") && match hex_val c with None => true | _ => false end)) eq_refl c). cbv beta in X.
  apply orb_prop in X as [X|X]; [exfalso; apply S, inb_true, X|].
  repeat (apply andb_prop in X as [X ?]). repeat match goal with H : negb _ = true |- _ => apply negb_true_iff in H end.
  destruct (hex_val c); [discriminate|]. auto 10.
Qed.

Lemma stops_no_digit t : stops t -> no_digit_head t.
Proof. destruct t as [|c t]; [exact (fun x => x)|]. intros S. exact (proj1 (stop_facts c S)). Qed.

Definition marker_of (hex : bool) : ascii := if hex then "p"%char else "e"%char.

Lemma exponent_read hex e ve t : exponent_text hex e ve -> stops t -> lex_exp (marker_of hex) (e ++ t) = (ve, t).
Proof.
  intros E S. destruct E as [|m sg neg b ds IM SG P NB].
  - cbn [app]. destruct t as [|c t]; [reflexivity|]. cbn [lex_exp]. destruct (stop_facts c S) as (_ & _ & X & Y & _).
    destruct hex; cbn [marker_of]; [rewrite Y|rewrite X]; reflexivity.
  - cbn [app lex_exp]. assert (L : Ascii.eqb (lower m) (marker_of hex) = true) by (destruct hex, IM as [<-|[<-|[]]]; reflexivity). rewrite L.
    destruct (dec_places b ds P) as (F & V & _).
    assert (T : take_sign ((sg ++ b) ++ t) = (neg, b ++ t)).
    { destruct SG; [|reflexivity|reflexivity]. cbn [app]. destruct b as [|c b]; [contradiction NB; reflexivity|]. cbn [app take_sign].
      destruct (isdig_props c (Forall_inv F)) as (_ & B & C). rewrite B, C. reflexivity. }
    rewrite T, span_digits_app by (auto using stops_no_digit). destruct b as [|c b]; [contradiction NB; reflexivity|]. rewrite V. reflexivity.
Qed.

(** After the whole part: a fraction, an exponent, or the end. *)
Lemma exponent_head hex e ve t : exponent_text hex e ve -> stops t ->
  no_digit_head (e ++ t) /\ (hex = true -> no_hex_head (e ++ t)) /\ match e ++ t with c :: _ => Ascii.eqb c "." = false | [] => True end.
Proof.
  intros E S. destruct E as [|m sg neg b ds IM SG P NB]; cbn [app].
  - destruct t as [|c t]; [repeat split; auto|]. destruct (stop_facts c S) as (A & B & C & D & F & G & H). cbn [no_digit_head no_hex_head]. auto.
  - destruct hex, IM as [<-|[<-|[]]]; repeat split; auto; discriminate.
Qed.

Lemma fraction_head hex f vf e ve t : fraction_text hex f vf -> exponent_text hex e ve -> stops t -> no_digit_head (f ++ e ++ t) /\ (hex = true -> no_hex_head (f ++ e ++ t)).
Proof.
  intros F E S. destruct (exponent_head hex e ve t E S) as (A & B & _). destruct F as [|b ds P]; [split; assumption|]. split; [reflexivity|intros _; reflexivity].
Qed.

Lemma value_app base va vb : value base (va ++ vb) = fold_left (fun a d => a * base + d) vb (value base va).
Proof. unfold value. apply fold_left_app. Qed.

Lemma decimal_lex neg a va f vf e ve t : places false a va -> fraction_text false f vf -> va ++ vf <> [] -> exponent_text false e ve -> stops t ->
  lex_dec neg (a ++ f ++ e ++ t) = Some (NumDec neg (value 10 (va ++ vf)) (ve - Z.of_nat (List.length vf)), t).
Proof.
  intros PA PF NE PE S. destruct (dec_places a va PA) as (FA & VA & LA). destruct (fraction_head _ _ _ _ _ t PF PE S) as (N1 & _).
  destruct (exponent_head _ _ _ t PE S) as (N2 & _ & N3). assert (X := exponent_read false e ve t PE S). cbn [marker_of] in X.
  unfold lex_dec. rewrite span_digits_app by assumption. destruct PF as [|b vf PB].
  - cbn [app] in *. rewrite app_nil_r in *. rewrite Z.sub_0_r.
    assert (NA : a <> []). { intros ->. destruct va; [contradiction NE; reflexivity|discriminate LA]. }
    revert X N3. destruct (e ++ t) as [|c r]; intros X N3; [|rewrite N3]; rewrite app_nil_r; (destruct a as [|d a]; [contradiction NA; reflexivity|]);
      rewrite X; cbn [List.length]; rewrite Z.sub_0_r, VA; reflexivity.
  - cbn [app]. change (Ascii.eqb "." ".") with true. cbv iota. destruct (dec_places b vf PB) as (FB & VB & LB). rewrite span_digits_app by assumption.
    assert (NAB : a ++ b <> []). { intros Y. apply app_eq_nil in Y as [-> ->]. destruct va, vf; try discriminate; contradiction NE; reflexivity. }
    destruct (dec_places (a ++ b) (va ++ vf)) as (_ & VAB & _); [apply Forall2_app; assumption|].
    destruct a as [|c a]; [destruct b as [|c b]; [contradiction NAB; reflexivity|]|]; cbn [app] in *; rewrite X, VAB, LB; reflexivity.
Qed.

Lemma hexadecimal_lex neg a va f vf e ve t : places true a va -> fraction_text true f vf -> va ++ vf <> [] -> exponent_text true e ve -> stops t ->
  lex_hex neg (a ++ f ++ e ++ t) = Some (NumHex neg (value 16 (va ++ vf)) (ve - 4 * Z.of_nat (List.length vf)), t).
Proof.
  intros PA PF NE PE S. destruct (fraction_head _ _ _ _ _ t PF PE S) as (_ & N1).
  destruct (exponent_head _ _ _ t PE S) as (_ & N2 & N3). assert (X := exponent_read true e ve t PE S). cbn [marker_of] in X.
  unfold lex_hex. rewrite (span_hex_app a va) by auto. destruct PF as [|b vf PB].
  - cbn [app] in *. revert X N3. destruct (e ++ t) as [|c r]; intros X N3; [|rewrite N3]; (destruct (va ++ []) as [|d q] eqn:E; [contradiction NE; reflexivity|]);
      rewrite X; reflexivity.
  - cbn [app]. change (Ascii.eqb "." ".") with true. cbv iota. rewrite (span_hex_app b vf) by auto. destruct (va ++ vf) as [|d q] eqn:E; [contradiction NE; reflexivity|].
    rewrite X. reflexivity.
Qed.

(** ** The whole text *)

Lemma white_space s t : white s -> drop_space (s ++ t) = drop_space t.
Proof.
  induction 1 as [|c s H W IH]; [reflexivity|]. cbn [app drop_space].
  assert (X : isspace c = true) by (repeat destruct H as [<-|H]; try reflexivity; contradiction). rewrite X. exact IH.
Qed.

(** The first character after the sign. *)
Definition starts (s : bytes) : Prop := match s with c :: _ => isspace c = false /\ Ascii.eqb c "-" = false /\ Ascii.eqb c "+" = false | [] => False end.

Lemma signed sg neg s : sign_text sg neg -> starts s -> take_sign (drop_space (sg ++ s)) = (neg, s).
Proof.
  intros SG H. destruct s as [|c s]; [contradiction|]. destruct H as (A & B & C).
  destruct SG; cbn [app drop_space]; [rewrite A; cbn [take_sign]; rewrite B, C; reflexivity|reflexivity|reflexivity].
Qed.

Lemma digit_starts c s : is_digit c = true -> starts (c :: s) /\
  drop_prefix_ci ($"infinity") (c :: s) = None /\ drop_prefix_ci ($"inf") (c :: s) = None /\ drop_prefix_ci ($"nan") (c :: s) = None.
Proof.
  intros D. split; [apply isdig_props; exact D|].
  assert (X := every_char (fun c => implb (is_digit c) (negb (Ascii.eqb "i" (lower c)) && negb (Ascii.eqb "n" (lower c)))) eq_refl c). cbv beta in X. rewrite D in X.
  apply andb_prop in X as [X Y]. apply negb_true_iff in X, Y. cbn [lit list_ascii_of_string drop_prefix_ci]. rewrite X, Y. auto.
Qed.

Lemma point_starts s : starts ("."%char :: s) /\
  drop_prefix_ci ($"infinity") ("."%char :: s) = None /\ drop_prefix_ci ($"inf") ("."%char :: s) = None /\ drop_prefix_ci ($"nan") ("."%char :: s) = None.
Proof. repeat split. Qed.

(** A decimal numeral is not the start of a hexadecimal one. *)
Lemma not_hex a va f vf e ve t : places false a va -> fraction_text false f vf -> exponent_text false e ve -> stops t -> drop_prefix_ci ($"0x") (a ++ f ++ e ++ t) = None.
Proof.
  intros PA PF PE S. cbn [lit list_ascii_of_string drop_prefix_ci].
  assert (H2 : match f ++ e ++ t with c :: _ => Ascii.eqb "x" (lower c) = false | [] => True end).
  { destruct PF; [|reflexivity]. cbn [app]. destruct PE as [|m sg neg b ds IM SG P NB]; [|destruct IM as [<-|[<-|[]]]; reflexivity].
    cbn [app]. destruct t as [|c t]; [exact I|]. destruct (stop_facts c S) as (_ & _ & _ & _ & X & _). rewrite Ascii.eqb_sym. exact X. }
  assert (H1 : match f ++ e ++ t with c :: _ => is_digit c = false | [] => True end).
  { destruct (fraction_head _ _ _ _ _ t PF PE S) as (N1 & _). destruct (f ++ e ++ t); auto. }
  destruct PA as [|c d a va H PA]; cbn [app].
  - destruct (f ++ e ++ t) as [|c r]; [reflexivity|]. destruct (Ascii.eqb_spec "0" (lower c)) as [E|]; [|reflexivity].
    exfalso. assert (X := every_char (fun c => is_digit c || negb (Ascii.eqb "0" (lower c))) eq_refl c). cbv beta in X. rewrite H1, <- E in X. discriminate X.
  - destruct (Ascii.eqb "0" (lower c)); [|reflexivity]. destruct PA as [|c2 d2 a va H3 PA]; cbn [app].
    + destruct (f ++ e ++ t) as [|c2 r]; [reflexivity|]. rewrite H2. reflexivity.
    + apply dec_digit in H3 as [H3 _]. assert (X := every_char (fun c => implb (is_digit c) (negb (Ascii.eqb "x" (lower c)))) eq_refl c2). cbv beta in X.
      rewrite H3 in X. apply negb_true_iff in X. rewrite X. reflexivity.
Qed.

(** The token of a numeral, and its magnitude. *)
Definition tok_value (k : numtok) : option (bool * R) :=
  match k with
  | NumDec neg m e => Some (neg, (IZR m * powerRZ 10 e)%R)
  | NumHex neg m e => Some (neg, (IZR m * powerRZ 2 e)%R)
  | _ => None
  end.

Lemma value_nonneg base ds : 0 <= base -> Forall (fun d => 0 <= d) ds -> 0 <= value base ds.
Proof.
  intros B F. unfold value. assert (G : forall z, 0 <= z -> 0 <= fold_left (fun a d => a * base + d) ds z).
  { induction F as [|d ds H F IH]; intros z Z0; [exact Z0|]. cbn [fold_left]. apply IH. nia. }
  apply G. lia.
Qed.
Lemma digit_nonneg hex c d : digit_of hex c d -> 0 <= d.
Proof. intros (n & -> & _). lia. Qed.
Lemma places_nonneg hex a va : places hex a va -> Forall (fun d => 0 <= d) va.
Proof. induction 1 as [|c d a va H P IH]; constructor; [exact (digit_nonneg _ _ _ H)|exact IH]. Qed.
Lemma fraction_nonneg hex f vf : fraction_text hex f vf -> Forall (fun d => 0 <= d) vf.
Proof. intros [|b ds P]; [constructor|exact (places_nonneg _ _ _ P)]. Qed.

Definition tok_nonneg (k : numtok) : Prop := match k with NumDec _ m _ | NumHex _ m _ => 0 <= m | _ => True end.

Lemma numeral_lex sp s neg x t : white sp -> numeral_text s neg x -> stops t ->
  exists k, lex_num (sp ++ s ++ t) = Some (k, t) /\ tok_value k = Some (neg, x) /\ tok_nonneg k.
Proof.
  intros W N S. unfold lex_num. rewrite white_space by exact W. destruct N as [sg neg a va f vf e ve SG PA PF NE PE|sg neg h a va f vf e ve SG HH PA PF NE PE].
  - assert (H : starts (a ++ f ++ e ++ t) /\ drop_prefix_ci ($"infinity") (a ++ f ++ e ++ t) = None /\ drop_prefix_ci ($"inf") (a ++ f ++ e ++ t) = None /\
      drop_prefix_ci ($"nan") (a ++ f ++ e ++ t) = None).
    { destruct PA as [|c d a va H PA]; cbn [app].
      - destruct PF as [|b ds PB]; [contradiction NE; reflexivity|]. cbn [app]. apply point_starts.
      - apply digit_starts. apply dec_digit in H. exact (proj1 H). }
    destruct H as (H0 & H1 & H2 & H3). rewrite <- !app_assoc. rewrite (signed sg neg) by assumption. rewrite H1, H2, H3.
    rewrite (not_hex a va f vf e ve t) by assumption. rewrite (decimal_lex neg a va f vf e ve t) by assumption.
    eexists. split; [reflexivity|]. split; [reflexivity|]. cbn [tok_nonneg]. apply value_nonneg; [lia|]. apply Forall_app. split; [exact (places_nonneg _ _ _ PA)|exact (fraction_nonneg _ _ _ PF)].
  - assert (H : starts (h ++ a ++ f ++ e ++ t) /\ drop_prefix_ci ($"infinity") (h ++ a ++ f ++ e ++ t) = None /\ drop_prefix_ci ($"inf") (h ++ a ++ f ++ e ++ t) = None /\
      drop_prefix_ci ($"nan") (h ++ a ++ f ++ e ++ t) = None /\ drop_prefix_ci ($"0x") (h ++ a ++ f ++ e ++ t) = Some (a ++ f ++ e ++ t)).
    { destruct HH as [<-|[<-|[]]]; repeat split. }
    destruct H as (H0 & H1 & H2 & H3 & H4). rewrite <- !app_assoc. rewrite (signed sg neg) by assumption. rewrite H1, H2, H3, H4.
    rewrite (hexadecimal_lex neg a va f vf e ve t) by assumption.
    eexists. split; [reflexivity|]. split; [reflexivity|]. cbn [tok_nonneg]. apply value_nonneg; [lia|]. apply Forall_app. split; [exact (places_nonneg _ _ _ PA)|exact (fraction_nonneg _ _ _ PF)].
Qed.

(** ** Values *)

Section Format.
Context {prec emax : Z}.
Context (Hp : Prec_gt_0 prec) (He : Prec_lt_emax prec emax).
Notation float := (binary_float prec emax).
Notation rnd := (round radix2 (SpecFloat.fexp prec emax) ZnearestE).

Lemma below_normal_small (x : float) : is_finite x = true -> below_normal x = true -> (Rabs (B2R x) < bpow radix2 (2 - emax))%R.
Proof.
  intros F B. destruct (Rlt_le_dec (Rabs (B2R x)) (bpow radix2 (2 - emax))) as [L|L]; [exact L|]. rewrite (normal_not_below x F L) in B. discriminate B.
Qed.

Lemma below_normal_big (x : float) : is_finite x = true -> below_normal x = false -> (bpow radix2 (2 - emax) <= Rabs (B2R x))%R.
Proof.
  destruct x as [s|s| |s m e b]; cbn [below_normal is_finite]; intros F B; try discriminate. apply Z.ltb_ge in B.
  cbn [B2R]. rewrite <- F2R_Zabs, abs_cond_Zopp. cbn [Z.abs].
  apply Rle_trans with (bpow radix2 (Z.log2 (Zpos m) + e)); [apply bpow_le; lia|].
  unfold F2R. cbn [Fnum Fexp]. rewrite bpow_plus. apply Rmult_le_compat_r; [apply bpow_ge_0|].
  rewrite <- IZR_Zpower by apply Z.log2_nonneg. apply IZR_le. change (radix2 ^ Z.log2 (Zpos m)) with (2 ^ Z.log2 (Zpos m)). apply Z.log2_spec. lia.
Qed.

Lemma exact_ratio_true (x : float) n d : is_finite x = true -> (exact_ratio x n d = true <-> Rabs (B2R x) = (IZR (Zpos n) / IZR (Zpos d))%R).
Proof.
  intros F. assert (PN : (0 < IZR (Zpos n))%R) by (apply IZR_lt; lia). assert (PD : (0 < IZR (Zpos d))%R) by (apply IZR_lt; lia).
  destruct x as [s|s| |s m e b]; cbn [exact_ratio is_finite] in *; try discriminate F.
  - cbn [B2R]. rewrite Rabs_R0. split; [discriminate|]. intros E. exfalso. assert (0 < IZR (Zpos n) / IZR (Zpos d))%R by (apply Rdiv_lt_0_compat; assumption). lra.
  - assert (V := ratio_of_value m e). destruct (ratio_of m e) as [p q]. destruct V as (Pp & Pq & V).
    assert (A : Rabs (B2R (B754_finite s m e b : float)) = (IZR p / IZR q)%R).
    { cbn [B2R]. rewrite <- F2R_Zabs, abs_cond_Zopp. cbn [Z.abs]. symmetry. exact V. }
    rewrite A. assert (PQ : (0 < IZR q)%R) by (apply IZR_lt; exact Pq). rewrite Z.eqb_eq. split; intros E.
    + apply (f_equal IZR) in E. rewrite !mult_IZR in E. apply Rmult_eq_reg_r with (IZR q * IZR (Zpos d))%R; [|nra]. field_simplify; [|lra..]. lra.
    + apply eq_IZR. rewrite !mult_IZR. apply (f_equal (fun r => (r * (IZR q * IZR (Zpos d)))%R)) in E. field_simplify in E; [|lra..]. lra.
Qed.

Lemma value_ratio_reads neg n d x : x = (IZR (Zpos n) / IZR (Zpos d))%R -> @reads_as prec emax neg x (value_ratio prec emax Hp He neg n d).
Proof.
  intros EX. assert (PX : (0 < x)%R) by (rewrite EX; apply Rdiv_lt_0_compat; apply IZR_lt; lia).
  unfold reads_as. assert (C := ratio_float_correct Hp He neg n d). cbv zeta in C. rewrite <- EX in C.
  set (v := (if neg then - x else x)%R) in *. assert (AV : Rabs v = x) by (unfold v; destruct neg; [rewrite Rabs_Ropp|]; apply Rabs_pos_eq; lra).
  unfold value_ratio. set (y := ratio_float prec emax Hp He neg n d) in *.
  split; [intros Z0; lra|]. destruct (Rlt_bool_spec (Rabs (rnd v)) (bpow radix2 emax)) as [L|L].
  - destruct C as (C1 & C2 & C3).
    assert (Y : match y with B754_infinity _ => Throw | _ => if below_normal y && negb (exact_ratio y n d) then Throw else Ok y end =
      if below_normal y && negb (exact_ratio y n d) then Throw else Ok y) by (destruct y; [reflexivity|discriminate C2|discriminate C2|reflexivity]).
    rewrite Y. assert (XR := exact_ratio_true y n d C2). rewrite C1, <- EX in XR.
    assert (SG : (0 <= rnd v * v)%R).
    { unfold v. destruct neg; [rewrite round_NE_opp|]; assert (P0 : (0 <= rnd x)%R) by (rewrite <- (round_0 radix2 (SpecFloat.fexp prec emax) ZnearestE); apply round_le; [apply fexp_correct; exact Hp|apply valid_rnd_N|lra]); nra. }
    assert (EQ : Rabs (rnd v) = x <-> rnd v = v).
    { split; [|intros ->; exact AV]. intros E. rewrite <- AV in E. unfold Rabs in E. destruct (Rcase_abs (rnd v)), (Rcase_abs v); nra. }
    rewrite EQ in XR.
    split; [intros _ G; lra|]. split.
    + intros _ _ [B|B].
      * assert (BN : below_normal y = false). { destruct (below_normal y) eqn:E; [|reflexivity]. apply (below_normal_small y C2) in E. rewrite C1 in E. lra. }
        rewrite BN. cbn [andb]. exists y. auto.
      * rewrite (proj2 XR B). cbn [negb]. rewrite andb_false_r. exists y. auto.
    + intros _ B NE. assert (BN : below_normal y = true). { destruct (below_normal y) eqn:E; [reflexivity|]. apply (below_normal_big y C2) in E. rewrite C1 in E. lra. }
      rewrite BN. destruct (exact_ratio y n d); [contradiction NE; apply XR; reflexivity|]. reflexivity.
  - rewrite C. split; [reflexivity|]. split; [intros _ G; lra|].
    intros _ B. exfalso. assert (bpow radix2 (2 - emax) <= bpow radix2 emax)%R; [|lra]. apply bpow_le. unfold Prec_gt_0, Prec_lt_emax in *. lia.
Qed.

Lemma ratio_of_dec_powerRZ base m e : 1 < base -> let '(n, d) := ratio_of_dec base m e in (IZR (Zpos m) * powerRZ (IZR base) e)%R = (IZR (Zpos n) / IZR (Zpos d))%R.
Proof.
  intros B. unfold ratio_of_dec. destruct (Z.leb_spec 0 e) as [E|E].
  - assert (0 < base ^ e) by (apply Z.pow_pos_nonneg; lia). rewrite Z2Pos.id by nia. rewrite mult_IZR. unfold Rdiv. rewrite Rinv_1, Rmult_1_r. f_equal.
    rewrite <- (Z2Nat.id e) at 1 by exact E. rewrite <- pow_powerRZ. rewrite pow_IZR. rewrite Z2Nat.id by exact E. reflexivity.
  - assert (0 < base ^ (- e)) by (apply Z.pow_pos_nonneg; lia). rewrite Z2Pos.id by assumption. unfold Rdiv. f_equal.
    rewrite <- (Z.opp_involutive e) at 1. rewrite powerRZ_neg'.
    rewrite <- (Z2Nat.id (- e)) at 1 by lia. rewrite <- pow_powerRZ, pow_IZR, Z2Nat.id by lia. reflexivity.
Qed.

Lemma token_reads k neg x : tok_value k = Some (neg, x) -> tok_nonneg k -> @reads_as prec emax neg x (value_of prec emax Hp He k).
Proof.
  intros V N. destruct k as [n m e|n m e| |]; cbn [tok_value tok_nonneg] in *; try discriminate V; injection V as -> <-; cbn [value_of].
  all: destruct m as [|m|m]; [|assert (R := fun b => ratio_of_dec_powerRZ b m e)|lia].
  - rewrite Rmult_0_l. unfold reads_as. split; [reflexivity|]. repeat split; intros Z0; contradiction Z0; reflexivity.
  - specialize (R 10 ltac:(lia)). destruct (ratio_of_dec 10 m e) as [p q]. apply value_ratio_reads. exact R.
  - rewrite Rmult_0_l. unfold reads_as. split; [reflexivity|]. repeat split; intros Z0; contradiction Z0; reflexivity.
  - specialize (R 2 ltac:(lia)). destruct (ratio_of_dec 2 m e) as [p q]. apply value_ratio_reads. exact R.
Qed.

Lemma numeral_reads sp s neg x t : white sp -> numeral_text s neg x -> stops t ->
  exists o, @reads_as prec emax neg x o /\ stoX prec emax Hp He (sp ++ s ++ t) = let* y := o in Ok (y, t).
Proof.
  intros W N S. destruct (numeral_lex sp s neg x t W N S) as (k & L & V & P). exists (value_of prec emax Hp He k).
  split; [exact (token_reads k neg x V P)|]. unfold stoX. rewrite L. reflexivity.
Qed.

(** ** Words *)

Lemma upper_lower c d : upper d = upper c -> inb c ($"abcdefghijklmnopqrstuvwxyz") = true -> lower d = c.
Proof.
  intros E L. assert (X := every_char (fun d => forallb (fun c => implb (Ascii.eqb (upper d) (upper c)) (Ascii.eqb (lower d) c)) ($"abcdefghijklmnopqrstuvwxyz")) eq_refl d).
  cbv beta in X. rewrite forallb_forall in X. apply inb_true in L. specialize (X c L). rewrite E, Ascii.eqb_refl in X. apply Ascii.eqb_eq. exact X.
Qed.

Lemma lower_upper c d : inb c ($"abcdefghijklmnopqrstuvwxyz") = true -> lower d = c -> upper d = upper c.
Proof.
  intros L E. assert (X := every_char (fun d => implb (inb (lower d) ($"abcdefghijklmnopqrstuvwxyz")) (Ascii.eqb (upper d) (upper (lower d)))) eq_refl d).
  cbv beta in X. rewrite E, L in X. apply Ascii.eqb_eq. exact X.
Qed.

Lemma word_drop p : forall w t, forallb (fun c => inb c ($"abcdefghijklmnopqrstuvwxyz")) p = true -> map upper w = map upper p -> drop_prefix_ci p (w ++ t) = Some t.
Proof.
  induction p as [|c p IH]; intros w t L E; destruct w as [|d w]; try discriminate E; [reflexivity|].
  cbn [map] in E. injection E as E1 E2. cbn [forallb] in L. apply andb_prop in L as [L1 L2]. cbn [app drop_prefix_ci].
  rewrite (upper_lower c d E1 L1), Ascii.eqb_refl. apply IH; assumption.
Qed.

Lemma drop_word p : forall s r, forallb (fun c => inb c ($"abcdefghijklmnopqrstuvwxyz")) p = true -> drop_prefix_ci p s = Some r ->
  exists w, s = w ++ r /\ map upper w = map upper p.
Proof.
  induction p as [|c p IH]; intros s r L E; cbn [drop_prefix_ci] in E; [injection E as <-; exists []; split; reflexivity|].
  destruct s as [|d s]; [discriminate E|]. cbn [forallb] in L. apply andb_prop in L as [L1 L2].
  destruct (Ascii.eqb_spec c (lower d)) as [X|]; [|discriminate E]. destruct (IH s r L2 E) as (w & -> & M). exists (d :: w). split; [reflexivity|].
  cbn [map]. rewrite M, (lower_upper c d L1 (eq_sym X)). reflexivity.
Qed.

Lemma no_inf_nan w : map upper w = $"NAN" -> forall t, drop_prefix_ci ($"infinity") (w ++ t) = None /\ drop_prefix_ci ($"inf") (w ++ t) = None.
Proof.
  intros E t. destruct w as [|c w]; [discriminate E|]. cbn [map] in E. injection E as E _. cbn [app lit list_ascii_of_string drop_prefix_ci].
  assert (X := every_char (fun c => implb (Ascii.eqb (upper c) "N") (negb (Ascii.eqb "i" (lower c)))) eq_refl c). cbv beta in X. rewrite E in X.
  apply negb_true_iff in X. rewrite X. split; reflexivity.
Qed.

Lemma letter_starts c : inb (upper c) ($"IN") = true -> isspace c = false /\ Ascii.eqb c "-" = false /\ Ascii.eqb c "+" = false.
Proof.
  intros E. assert (X := every_char (fun c => implb (inb (upper c) ($"IN")) (negb (isspace c) && negb (Ascii.eqb c "-") && negb (Ascii.eqb c "+"))) eq_refl c).
  cbv beta in X. rewrite E in X. cbn [implb] in X. apply andb_prop in X as [X A]. apply andb_prop in X as [X B]. apply negb_true_iff in X, A, B. auto.
Qed.

Lemma word_starts w t : In (map upper w) [$"INF"; $"INFINITY"; $"NAN"] -> starts (w ++ t).
Proof.
  intros I. destruct w as [|c w]; [exfalso; destruct I as [I|[I|[I|[]]]]; discriminate I|]. cbn [app starts]. apply letter_starts.
  destruct I as [I|[I|[I|[]]]]; cbn [map] in I; injection I as I _; rewrite <- I; reflexivity.
Qed.

Lemma word_reads sp s y t : white sp -> @word_text prec emax s y -> stops t -> stoX prec emax Hp He (sp ++ s ++ t) = Ok (y, t).
Proof.
  intros W N S. unfold stoX, lex_num. rewrite white_space by exact W. destruct N as [sg neg w SG I|sg neg w SG E].
  - rewrite <- app_assoc, (signed sg neg) by (first [assumption|apply word_starts; destruct I as [I|[I|[]]]; rewrite <- I; cbn [In]; auto]).
    destruct I as [I|[I|[]]].
    + assert (X : drop_prefix_ci ($"infinity") (w ++ t) = None).
      { destruct w as [|c1 w]; [discriminate I|]. destruct w as [|c2 w]; [discriminate I|]. destruct w as [|c3 w]; [discriminate I|]. destruct w; [|discriminate I]. cbn [map] in I. injection I as I1 I2 I3. cbn [app lit list_ascii_of_string drop_prefix_ci].
        destruct (Ascii.eqb "i" (lower c1)), (Ascii.eqb "n" (lower c2)), (Ascii.eqb "f" (lower c3)); try reflexivity. destruct t as [|c t]; [reflexivity|].
        destruct (stop_facts c S) as (_ & _ & _ & _ & _ & Y & _). rewrite Ascii.eqb_sym, Y. reflexivity. }
      rewrite X, (word_drop ($"inf") w t eq_refl (eq_sym I)). reflexivity.
    + rewrite (word_drop ($"infinity") w t eq_refl (eq_sym I)). reflexivity.
  - rewrite <- app_assoc, (signed sg neg) by (first [assumption|apply word_starts; rewrite E; cbn [In]; auto]).
    destruct (no_inf_nan w E t) as [-> ->]. rewrite (word_drop ($"nan") w t eq_refl E). reflexivity.
Qed.

(** ** Nothing else is read *)

Lemma drop_space_inv s : exists sp, s = sp ++ drop_space s /\ white sp.
Proof.
  induction s as [|c s (sp & E & W)]; [exists []; split; [reflexivity|constructor]|]. cbn [drop_space]. destruct (isspace c) eqn:D.
  - exists (c :: sp). split; [cbn [app]; congruence|]. constructor; [|exact W].
    assert (X := every_char (fun c => implb (isspace c) (inb c [" "; "009"; "010"; "011"; "012"; "013"]%char)) eq_refl c). cbv beta in X. rewrite D in X. apply inb_true. exact X.
  - exists []. split; [reflexivity|constructor].
Qed.

Lemma take_sign_inv s neg r : take_sign s = (neg, r) -> exists sg, s = sg ++ r /\ sign_text sg neg.
Proof.
  destruct s as [|c s]; cbn [take_sign]; intros E; [injection E as <- <-; exists []; split; [reflexivity|constructor]|].
  destruct (Ascii.eqb_spec c "-") as [->|]; [injection E as <- <-; exists ["-"%char]; split; [reflexivity|constructor]|].
  destruct (Ascii.eqb_spec c "+") as [->|]; [injection E as <- <-; exists ["+"%char]; split; [reflexivity|constructor]|].
  injection E as <- <-. exists []. split; [reflexivity|constructor].
Qed.

Lemma lex_exp_inv hex s ve r : lex_exp (marker_of hex) s = (ve, r) -> exists e, s = e ++ r /\ exponent_text hex e ve.
Proof.
  destruct s as [|c s]; cbn [lex_exp]; intros E; [injection E as <- <-; exists []; split; [reflexivity|constructor]|].
  destruct (Ascii.eqb (lower c) (marker_of hex)) eqn:M; [|injection E as <- <-; exists []; split; [reflexivity|constructor]].
  destruct (take_sign s) as [neg r1] eqn:T. destruct (span_digits r1) as [ds rest] eqn:D. apply take_sign_inv in T as (sg & -> & SG).
  apply span_digits_digits in D as (F & -> & _). destruct ds as [|d ds]; [injection E as <- <-; exists []; split; [reflexivity|constructor]|].
  destruct (places_dec (d :: ds) F) as (va & P). destruct (dec_places _ _ P) as (_ & V & _). injection E as E <-.
  exists (c :: sg ++ d :: ds). split; [cbn [app]; rewrite <- app_assoc; reflexivity|]. rewrite V in E. rewrite <- E. apply an_exponent; auto; [|discriminate].
  assert (X := every_char (fun c => implb (Ascii.eqb (lower c) "p") (inb c ["p"; "P"]%char) && implb (Ascii.eqb (lower c) "e") (inb c ["e"; "E"]%char)) eq_refl c).
  cbv beta in X. apply andb_prop in X as [X1 X2]. destruct hex; cbn [marker_of] in M; rewrite M in *; apply inb_true; assumption.
Qed.

Lemma lex_dec_inv neg s k r : lex_dec neg s = Some (k, r) -> exists a va f vf e ve, s = a ++ f ++ e ++ r /\ places false a va /\ fraction_text false f vf /\ va ++ vf <> [] /\
  exponent_text false e ve /\ k = NumDec neg (value 10 (va ++ vf)) (ve - Z.of_nat (List.length vf)).
Proof.
  unfold lex_dec. destruct (span_digits s) as [a r1] eqn:D. apply span_digits_digits in D as (F & -> & _). destruct (places_dec a F) as (va & PA).
  intros E.
  assert (G : exists b f vf r2, r1 = f ++ r2 /\ fraction_text false f vf /\ places false b vf /\
    match a ++ b with [] => None | ds => let '(e, rest) := lex_exp "e" r2 in Some (NumDec neg (digits_val ds) (e - Z.of_nat (List.length b)), rest) end = Some (k, r)).
  { destruct r1 as [|c q]; [exists [], [], [], []; repeat split; try constructor; exact E|].
    destruct (Ascii.eqb_spec c ".") as [->|]; [|exists [], [], [], (c :: q); repeat split; try constructor; exact E].
    destruct (span_digits q) as [b r'] eqn:D2. apply span_digits_digits in D2 as (F2 & -> & _). destruct (places_dec b F2) as (vb & PB).
    destruct a as [|ca a]; [destruct b as [|cb b]|].
    - discriminate E.
    - exists (cb :: b), ("."%char :: cb :: b), vb, r'. repeat split; [constructor; exact PB|exact PB|exact E].
    - exists b, ("."%char :: b), vb, r'. repeat split; [constructor; exact PB|exact PB|exact E]. }
  clear E. destruct G as (b & f & vf & r2 & -> & PF & PB & E). assert (PAB : places false (a ++ b) (va ++ vf)) by (apply Forall2_app; assumption).
  destruct (dec_places _ _ PAB) as (_ & V & _). destruct (dec_places _ _ PB) as (_ & _ & LB).
  destruct (a ++ b) as [|c q] eqn:AB; [discriminate E|]. destruct (lex_exp "e" r2) as [ve rest] eqn:LE.
  change "e"%char with (marker_of false) in LE. apply lex_exp_inv in LE as (e & -> & PE). injection E as <- <-.
  exists a, va, f, vf, e, ve. rewrite V, LB. repeat split; auto. intros Y. rewrite Y in PAB. inversion PAB.
Qed.

Lemma lex_hex_inv neg s k r : lex_hex neg s = Some (k, r) -> exists a va f vf e ve, s = a ++ f ++ e ++ r /\ places true a va /\ fraction_text true f vf /\ va ++ vf <> [] /\
  exponent_text true e ve /\ k = NumHex neg (value 16 (va ++ vf)) (ve - 4 * Z.of_nat (List.length vf)).
Proof.
  unfold lex_hex. destruct (span_hex s) as [va r1] eqn:D. apply span_hex_inv in D as (a & PA & -> & _). intros E.
  assert (G : exists f vf r2, r1 = f ++ r2 /\ fraction_text true f vf /\
    match va ++ vf with [] => None | ds => let '(e, rest) := lex_exp "p" r2 in Some (NumHex neg (value 16 ds) (e - 4 * Z.of_nat (List.length vf)), rest) end = Some (k, r)).
  { destruct r1 as [|c q]; [exists [], [], []; repeat split; try constructor; exact E|].
    destruct (Ascii.eqb_spec c ".") as [->|]; [|exists [], [], (c :: q); repeat split; try constructor; exact E].
    destruct (span_hex q) as [vb r'] eqn:D2. apply span_hex_inv in D2 as (b & PB & -> & _).
    exists ("."%char :: b), vb, r'. repeat split; [constructor; exact PB|exact E]. }
  clear E. destruct G as (f & vf & r2 & -> & PF & E). destruct (va ++ vf) as [|c q] eqn:AB; [discriminate E|]. destruct (lex_exp "p" r2) as [ve rest] eqn:LE.
  change "p"%char with (marker_of true) in LE. apply lex_exp_inv in LE as (e & -> & PE). injection E as <- <-.
  exists a, va, f, vf, e, ve. rewrite AB. repeat split; auto. discriminate.
Qed.

Lemma read_inv s y t : stoX prec emax Hp He s = Ok (y, t) -> exists sp w, s = sp ++ w ++ t /\ white sp /\
  (word_text w y \/ exists neg x, numeral_text w neg x /\ @reads_as prec emax neg x (Ok y)).
Proof.
  unfold stoX. destruct (lex_num s) as [[k r]|] eqn:L; [|discriminate]. intros E.
  assert (V : value_of prec emax Hp He k = Ok y /\ r = t). { destruct (value_of prec emax Hp He k); try discriminate E. injection E as <- <-. auto. }
  clear E. destruct V as [V ->]. unfold lex_num in L. destruct (drop_space_inv s) as (sp & ES & W).
  destruct (take_sign (drop_space s)) as [neg s1] eqn:T. apply take_sign_inv in T as (sg & ED & SG). rewrite ED in ES. clear ED.
  destruct (drop_prefix_ci ($"infinity") s1) as [r1|] eqn:P1.
  { injection L as <- <-. injection V as <-. apply drop_word in P1 as (w & -> & M); [|reflexivity]. exists sp, (sg ++ w). rewrite <- app_assoc. split; [exact ES|]. split; [exact W|].
    left. apply infinity_text; [exact SG|]. rewrite M. right. left. reflexivity. }
  destruct (drop_prefix_ci ($"inf") s1) as [r1|] eqn:P2.
  { injection L as <- <-. injection V as <-. apply drop_word in P2 as (w & -> & M); [|reflexivity]. exists sp, (sg ++ w). rewrite <- app_assoc. split; [exact ES|]. split; [exact W|].
    left. apply infinity_text; [exact SG|]. rewrite M. left. reflexivity. }
  destruct (drop_prefix_ci ($"nan") s1) as [r1|] eqn:P3.
  { injection L as <- <-. injection V as <-. apply drop_word in P3 as (w & -> & M); [|reflexivity]. exists sp, (sg ++ w). rewrite <- app_assoc. split; [exact ES|]. split; [exact W|].
    left. apply (nan_text sg neg); [exact SG|]. rewrite M. reflexivity. }
  assert (DEC : lex_dec neg s1 = Some (k, t) -> exists sp w, s = sp ++ w ++ t /\ white sp /\
    (word_text w y \/ exists neg x, numeral_text w neg x /\ @reads_as prec emax neg x (Ok y))).
  { intros D. apply lex_dec_inv in D as (a & va & f & vf & e & ve & -> & PA & PF & NE & PE & ->). exists sp, (sg ++ a ++ f ++ e). rewrite <- !app_assoc.
    split; [exact ES|]. split; [exact W|]. right. exists neg. eexists. split; [apply decimal; eassumption|]. rewrite <- V. apply token_reads; [reflexivity|].
    cbn [tok_nonneg]. apply value_nonneg; [lia|]. apply Forall_app. split; [exact (places_nonneg _ _ _ PA)|exact (fraction_nonneg _ _ _ PF)]. }
  destruct (drop_prefix_ci ($"0x") s1) as [r1|] eqn:P4; [|exact (DEC L)].
  destruct (lex_hex neg r1) as [kr|] eqn:H; [|exact (DEC L)]. injection L as ->. apply lex_hex_inv in H as (a & va & f & vf & e & ve & -> & PA & PF & NE & PE & ->).
  assert (HH : exists h, s1 = h ++ a ++ f ++ e ++ t /\ In h [$"0x"; $"0X"]).
  { cbn [lit list_ascii_of_string drop_prefix_ci] in P4. destruct s1 as [|c1 s1]; [discriminate P4|]. destruct (Ascii.eqb_spec "0" (lower c1)) as [Z1|]; [|discriminate P4].
    destruct s1 as [|c2 s1]; [discriminate P4|]. destruct (Ascii.eqb_spec "x" (lower c2)) as [Z2|]; [|discriminate P4]. injection P4 as <-.
    assert (Y1 := every_char (fun c => implb (Ascii.eqb "0" (lower c)) (Ascii.eqb c "0")) eq_refl c1). cbv beta in Y1. rewrite <- Z1 in Y1. apply Ascii.eqb_eq in Y1.
    assert (Y2 := every_char (fun c => implb (Ascii.eqb "x" (lower c)) (inb c ["x"; "X"]%char)) eq_refl c2). cbv beta in Y2. rewrite <- Z2 in Y2. cbn [Ascii.eqb implb] in Y2. apply inb_true in Y2.
    exists [c1; c2]. split; [reflexivity|]. rewrite Y1. destruct Y2 as [<-|[<-|[]]]; [left|right; left]; reflexivity. }
  destruct HH as (h & -> & HH). exists sp, (sg ++ h ++ a ++ f ++ e). rewrite <- !app_assoc. split; [exact ES|]. split; [exact W|]. right. exists neg. eexists.
  split; [apply hexadecimal; eassumption|]. rewrite <- V. apply token_reads; [reflexivity|].
  cbn [tok_nonneg]. apply value_nonneg; [lia|]. apply Forall_app. split; [exact (places_nonneg _ _ _ PA)|exact (fraction_nonneg _ _ _ PF)].
Qed.
End Format.
